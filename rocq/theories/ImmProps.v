(** C108: the monos made by Just and Error, and Map on top of them. *)
From Verif Require Import Base BaseFacts ImmModel.

(** ** Specification *)
Section Spec.
Context {V E : Type}.
(** What a stack of transforms stands on, and the names of the transforms in the
    order in which a value passes them. *)
Fixpoint source (m : imono V E) : V + E := match m with IError e => inr e | IJust v => inl v | IMap _ m' => source m' end.
Fixpoint names (m : imono V E) : list N := match m with IMap n m' => names m' ++ [n] | _ => [] end.
Variable tx : list (imev V E) -> N -> V -> V + E.
(** A value passes the transforms one after the other up to the first that fails. *)
Inductive passes : list (imev V E) -> V -> list N -> list (imev V E) -> V + E -> Prop :=
| p_end : forall t v, passes t v [] [] (inl v)
| p_fail : forall t n ns v e, tx t n v = inr e -> passes t v (n :: ns) [ETx n v] (inr e)
| p_next : forall t n ns v w evs r, tx t n v = inl w -> passes (t ++ [ETx n v]) w ns evs r -> passes t v (n :: ns) (ETx n v :: evs) r.
(** One evaluation after [t]: what happens and what comes out. *)
Definition outcome (m : imono V E) (t evs : list (imev V E)) (r : V + E) : Prop :=
  match source m with inr e => evs = [] /\ r = inr e | inl v => passes t v (names m) evs r end.
(** What a use is told of the outcome. *)
Definition answer (x : imop) (r : V + E) (l : list (imev V E)) : Prop :=
  match x with
  | USubscribe id s e _ _ => l = match r with inl v => if s then [EValue id v] else [] | inr u => if e then [EFail id u] else [] end
  | UGet => l = [EGot r]
  | UBlock => l = [EBlocked (Some r)] \/ l = [EClosed r; EBlocked (Some r)]
  | _ => False
  end.
Definition evaluates (x : imop) : bool := match x with USubscribe _ _ _ _ _ | UGet | UBlock => true | _ => false end.
End Spec.
(** The result of transforms without state. *)
Fixpoint composed {V E} (f : N -> V -> V + E) (ns : list N) (r : V + E) : V + E :=
  match ns with [] => r | n :: ns => composed f ns (match r with inl v => f n v | inr e => inr e end) end.
Definition told_to {V E} (id : N) (x : imev V E) : bool := match x with EValue i _ | EFail i _ => i =? id | _ => false end.
Definition of_sub (id : N) (x : imop) : bool := match x with USubscribe i _ _ _ _ => i =? id | _ => false end.
Definition is_tx {V E} (x : imev V E) : bool := match x with ETx _ _ => true | _ => false end.
Definition signals {V E} (t : list (imev V E)) : list (N * bool) := flat_map (fun x => match x with ENotified i b => [(i, b)] | _ => [] end) t.
Definition asked (xs : list imop) : list N := flat_map (fun x => match x with UNotify i => [i] | _ => [] end) xs.
Definition says {V E} (x : imev V E) : list (V + E) :=
  match x with EValue _ v => [inl v] | EFail _ e => [inr e] | EGot r | EBlocked (Some r) => [r] | _ => [] end.

(** ** Proofs *)
Section Facts.
Context {V E : Type}.
Variable tx : list (imev V E) -> N -> V -> V + E.
Lemma passes_fail : forall t v ns evs e, passes tx t v ns evs (inr e) -> forall n, passes tx t v (ns ++ [n]) evs (inr e).
Proof. intros t v ns evs e H n. remember (inr e) as r eqn:Hr. induction H; cbn [app]; [discriminate|now constructor|]. econstructor; eauto. Qed.
Lemma passes_more : forall t v ns evs w, passes tx t v ns evs (inl w) -> forall n r, tx (t ++ evs) n w = r -> passes tx t v (ns ++ [n]) (evs ++ [ETx n w]) r.
Proof.
  intros t v ns evs w H n. remember (inl w) as r0 eqn:Hr. induction H; intros r' Ht; cbn [app]; [|discriminate|].
  - injection Hr as ->. rewrite app_nil_r in Ht. destruct r'; [econstructor; [exact Ht|constructor]|now constructor].
  - econstructor; [eassumption|]. apply IHpasses; [exact Hr|]. now rewrite <- app_assoc.
Qed.
Lemma passes_txs : forall t v ns evs r, passes tx t v ns evs r -> Forall (fun x => is_tx x = true) evs.
Proof. intros t v ns evs r H. induction H; repeat constructor; auto. Qed.
Lemma outcome_txs : forall m t evs r, outcome tx m t evs r -> Forall (fun x => is_tx x = true) evs.
Proof. intros m t evs r. unfold outcome. destruct (source m); [apply passes_txs|]. intros [-> _]. constructor. Qed.
Lemma outcome_map : forall n m t evs r, outcome tx m t evs r ->
  match r with inr e => outcome tx (IMap n m) t evs (inr e) | inl w => outcome tx (IMap n m) t (evs ++ [ETx n w]) (tx (t ++ evs) n w) end.
Proof.
  intros n m t evs r. unfold outcome. cbn [source names]. destruct (source m) as [v|e]; intros H.
  - destruct r; [now eapply passes_more|now apply passes_fail].
  - destruct H as [-> ->]. auto.
Qed.
Lemma subscribe_spec : forall m sub t, exists evs r, outcome tx m t evs r /\
  isubscribe tx m sub t = match r with inl v => match is_success sub with Some f => f v (t ++ evs) | None => t ++ evs end | inr e => match is_error sub with Some f => f e (t ++ evs) | None => t ++ evs end end.
Proof.
  induction m as [e|v|n m IH]; intros sub t.
  - exists [], (inr e). rewrite app_nil_r. split; [split; reflexivity|reflexivity].
  - exists [], (inl v). rewrite app_nil_r. split; [constructor|reflexivity].
  - cbn [isubscribe]. edestruct IH as (evs & r & O & Eq). rewrite Eq. clear Eq. apply (outcome_map n) in O. destruct r as [v|e].
    + exists (evs ++ [ETx n v]), (tx (t ++ evs) n v). split; [exact O|]. cbn [is_success is_error]. rewrite app_assoc. destruct (tx (t ++ evs) n v); reflexivity.
    + exists evs, (inr e). split; [exact O|reflexivity].
Qed.
Lemma get_spec : forall m t, exists evs r, outcome tx m t evs r /\ iget tx m t = (r, t ++ evs).
Proof.
  induction m as [e|v|n m IH]; intros t.
  - exists [], (inr e). rewrite app_nil_r. split; [split; reflexivity|reflexivity].
  - exists [], (inl v). rewrite app_nil_r. split; [constructor|reflexivity].
  - cbn [iget]. destruct (IH t) as (evs & r & O & ->). apply (outcome_map n) in O. destruct r as [v|e].
    + exists (evs ++ [ETx n v]), (tx (t ++ evs) n v). split; [exact O|]. now rewrite app_assoc.
    + exists evs, (inr e). split; [exact O|reflexivity].
Qed.
Lemma closed_app : forall (a b : list (imev V E)), closed_in (a ++ b) = closed_in a ++ closed_in b.
Proof. intros. apply flat_map_app. Qed.
Lemma closed_txs : forall (l : list (imev V E)), Forall (fun x => is_tx x = true) l -> closed_in l = [].
Proof. induction 1 as [|x l H]; [reflexivity|]. destruct x; try discriminate. exact IHForall. Qed.
Lemma block_spec : forall m t, exists evs r l, outcome tx m t evs r /\ answer UBlock r l /\ iblock tx m t = t ++ evs ++ l.
Proof.
  intros m t. destruct m as [e|v|n m].
  - exists [], (inr e), [EBlocked (Some (inr e))]. split; [split; reflexivity|]. split; [now left|reflexivity].
  - exists [], (inl v), [EBlocked (Some (inl v))]. split; [constructor|]. split; [now left|reflexivity].
  - unfold iblock. destruct (subscribe_spec (IMap n m) block_sub t) as (evs & r & O & ->). exists evs, r, [EClosed r; EBlocked (Some r)]. split; [exact O|]. split; [now right|].
    assert (Eq : match r with inl v => (t ++ evs) ++ [EClosed (inl v)] | inr e => (t ++ evs) ++ [EClosed (inr e)] end = (t ++ evs) ++ [EClosed r]) by (destruct r; reflexivity).
    cbn [block_sub is_success is_error]. rewrite Eq, !closed_app, (closed_txs _ (outcome_txs _ _ _ _ O)), app_nil_r, skipn_app, skipn_all, Nat.sub_diag. cbn. now rewrite <- !app_assoc.
Qed.
Lemma step_spec : forall m x t,
  if evaluates x then exists evs r l, outcome tx m t evs r /\ answer x r l /\ imstep tx m x t = t ++ evs ++ l
  else imstep tx m x t = t ++ match x with UNotify id => [ENotified id (inotify m)] | _ => [] end.
Proof.
  intros m x t. destruct x as [id s e q f| | | |id]; cbn [evaluates imstep].
  - destruct (subscribe_spec m (user_sub id s e q f) t) as (evs & r & O & ->). eexists evs, r, _. split; [exact O|]. split; [reflexivity|].
    cbn [user_sub is_success is_error]. destruct r; [destruct s|destruct e]; rewrite ?app_nil_r, <- ?app_assoc; reflexivity.
  - destruct (get_spec m t) as (evs & r & O & ->). exists evs, r, [EGot r]. split; [exact O|]. split; [reflexivity|]. now rewrite <- app_assoc.
  - apply block_spec.
  - now rewrite app_nil_r.
  - reflexivity.
Qed.
Lemma run_snoc : forall m xs x, imrun tx m (xs ++ [x]) = imstep tx m x (imrun tx m xs).
Proof. intros. unfold imrun. now rewrite fold_left_app. Qed.
Lemma run_more : forall m ys xs, exists rest, imrun tx m (xs ++ ys) = imrun tx m xs ++ rest.
Proof.
  intros m ys. induction ys as [|y ys IH] using rev_ind; intros xs; [exists []; now rewrite !app_nil_r|]. destruct (IH xs) as (rest & Eq). rewrite app_assoc, run_snoc, Eq.
  pose proof (step_spec m y (imrun tx m xs ++ rest)) as S. destruct (evaluates y).
  - destruct S as (evs & r & l & _ & _ & ->). eexists. now rewrite <- app_assoc.
  - rewrite S. eexists. now rewrite <- app_assoc.
Qed.
Lemma txs_none : forall (A : Type) (g : imev V E -> list A) l, (forall n v, g (ETx n v) = []) -> Forall (fun x => is_tx x = true) l -> flat_map g l = [].
Proof. intros A g l H. induction 1 as [|x l Hx Hl IH]; [reflexivity|]. destruct x; try discriminate. cbn [flat_map]. now rewrite H. Qed.
Lemma composed_app : forall f a b (r : V + E), composed f (a ++ b) r = composed f b (composed f a r).
Proof. intros f a. induction a as [|n a IH]; intros b r; [reflexivity|apply IH]. Qed.
Lemma composed_error : forall f ns (e : E), @composed V E f ns (inr e) = inr e.
Proof. intros f ns. induction ns; auto. Qed.
Lemma passes_pure : forall f, (forall t n v, tx t n v = f n v) -> forall t v ns evs r, passes tx t v ns evs r ->
  r = composed f ns (inl v) /\ (forall w, r = inl w -> List.length evs = List.length ns).
Proof.
  intros f P t v ns evs r H. induction H.
  - auto.
  - cbn [composed]. rewrite P in H. rewrite H, composed_error. split; [reflexivity|discriminate].
  - destruct IHpasses as [A B]. cbn [composed]. rewrite P in H. rewrite H. split; [exact A|]. intros w' Hr. cbn. f_equal. eauto.
Qed.
Lemma outcome_pure : forall f, (forall t n v, tx t n v = f n v) -> forall m t evs r, outcome tx m t evs r ->
  r = composed f (names m) (source m) /\ (forall w, r = inl w -> List.length evs = List.length (names m)).
Proof.
  intros f P m t evs r. unfold outcome. destruct (source m); [now apply passes_pure|]. intros [-> ->]. rewrite composed_error. split; [reflexivity|discriminate].
Qed.
End Facts.

(** ** C108 *)
(** Every use of the mono evaluates it: the value passes the transforms again, and
    the user is told the outcome, once, before the next use. *)
Theorem C108_every_use_evaluates : forall V E (tx : list (imev V E) -> N -> V -> V + E) m xs1 x xs2, evaluates x = true ->
  exists evs r l rest, imrun tx m (xs1 ++ [x]) = imrun tx m xs1 ++ evs ++ l /\ outcome tx m (imrun tx m xs1) evs r /\ answer x r l /\
    imrun tx m (xs1 ++ x :: xs2) = imrun tx m (xs1 ++ [x]) ++ rest.
Proof.
  intros V E tx m xs1 x xs2 Ev. destruct (run_more tx m xs2 (xs1 ++ [x])) as (rest & Eq). rewrite <- app_assoc in Eq. cbn [app] in Eq. rewrite Eq, run_snoc.
  pose proof (step_spec tx m x (imrun tx m xs1)) as S. rewrite Ev in S. destruct S as (evs & r & l & O & A & ->). exists evs, r, l, rest. auto.
Qed.
(** A subscriber that gives both callbacks is told one outcome for each subscription,
    Block returns, and neither Finally nor OnRequest is ever called. *)
Theorem C108_told_once : forall V E (tx : list (imev V E) -> N -> V -> V + E) m xs,
  (forall id, (forall q f s e, In (USubscribe id s e q f) xs -> s = true /\ e = true) ->
    List.length (filter (told_to id) (imrun tx m xs)) = List.length (filter (of_sub id) xs)) /\
  (forall x, In x (imrun tx m xs) -> match x with ERequested _ | EFinal _ _ | ETwiceClosed | EBlocked None => False | _ => True end).
Proof.
  intros V E tx m xs. induction xs as [|x xs [I1 I2]] using rev_ind; [split; [reflexivity|intros x []]|].
  rewrite run_snoc. pose proof (step_spec tx m x (imrun tx m xs)) as S.
  assert (F : forall id (l : list (imev V E)), Forall (fun y => is_tx y = true) l -> filter (told_to id) l = []).
  { intros id l. induction 1 as [|y l Hy Hl IH]; [reflexivity|]. destruct y; try discriminate. exact IH. }
  destruct (evaluates x) eqn:Ev.
  - destruct S as (evs & r & l & O & A & ->). pose proof (outcome_txs tx _ _ _ _ O) as T. split.
    + intros id B. rewrite !filter_app, !app_length, I1, (F id evs T) by (intros; eapply B; apply in_app_iff; eauto). cbn [List.length]. rewrite Nat.add_0_l. f_equal.
      destruct x as [i s e q f| | | |i]; try discriminate; cbn [answer filter of_sub] in *.
      * destruct (i =? id) eqn:Ei.
        -- apply N.eqb_eq in Ei. subst i. destruct (B q f s e) as [-> ->]; [apply in_app_iff; right; now left|]. subst l. destruct r; cbn [filter told_to]; rewrite N.eqb_refl; reflexivity.
        -- subst l. destruct r; [destruct s|destruct e]; cbn [filter told_to]; rewrite ?Ei; reflexivity.
      * subst l. reflexivity.
      * destruct A as [->| ->]; reflexivity.
    + intros y. rewrite !in_app_iff. intros [H|[H|H]]; [now apply I2| |].
      * rewrite Forall_forall in T. apply T in H. destruct y; try discriminate. exact I.
      * destruct x as [i s e q f| | | |i]; try discriminate; cbn [answer] in A.
        -- subst l. destruct r; [destruct s|destruct e]; destruct H as [<-|[]] || destruct H; exact I.
        -- subst l. destruct H as [<-|[]]. exact I.
        -- destruct A as [->| ->]; [destruct H as [<-|[]]|destruct H as [<-|[<-|[]]]]; exact I.
  - rewrite S. split.
    + intros id B. rewrite !filter_app, !app_length, I1 by (intros; eapply B; apply in_app_iff; eauto). f_equal. destruct x; try discriminate; reflexivity.
    + intros y. rewrite in_app_iff. intros [H|H]; [now apply I2|]. destruct x; try discriminate; destruct H as [<-|[]] || destruct H; exact I.
Qed.
(** If the transforms keep no state, everybody is told the same: what the transforms
    make of the source, the first error ending them.  Each use calls every transform
    again. *)
Theorem C108_same_answer : forall V E (f : N -> V -> V + E) m xs,
  let t := imrun (fun _ => f) m xs in let r := composed f (names m) (source m) in
  (forall y, In y (flat_map says t) -> y = r) /\
  (forall w, r = inl w -> List.length (filter is_tx t) = (List.length (filter evaluates xs) * List.length (names m))%nat).
Proof.
  intros V E f m xs. cbn zeta. induction xs as [|x xs [I1 I2]] using rev_ind; [split; [intros y []|reflexivity]|].
  rewrite run_snoc. pose proof (step_spec (fun _ => f) m x (imrun (fun _ => f) m xs)) as S.
  assert (F : forall l : list (imev V E), Forall (fun y => is_tx y = true) l -> filter is_tx l = l).
  { induction 1 as [|y l Hy Hl IH]; [reflexivity|]. cbn [filter]. now rewrite Hy, IH. }
  destruct (evaluates x) eqn:Ev.
  - destruct S as (evs & r & l & O & A & ->). pose proof (outcome_txs _ _ _ _ _ O) as T. destruct (outcome_pure (fun _ => f) f (fun _ _ _ => eq_refl) _ _ _ _ O) as [R C]. split.
    + intros y. rewrite !flat_map_app, !in_app_iff, (txs_none _ says evs) by (auto; exact T). intros [H|[[]|H]]; [now apply I1|]. rewrite <- R.
      destruct x as [i s e q g| | | |i]; try discriminate; cbn [answer] in A.
      * subst l. destruct r; [destruct s|destruct e]; cbn in H; intuition congruence.
      * subst l. cbn in H. intuition congruence.
      * destruct A as [->| ->]; cbn in H; intuition congruence.
    + intros w Hw. rewrite !filter_app, !app_length, (I2 w Hw), (F evs T). rewrite (C w (eq_trans R Hw)).
      assert (Z : filter is_tx l = []).
      { destruct x as [i s e q g| | | |i]; try discriminate; cbn [answer] in A; [subst l; destruct r; [destruct s|destruct e]; reflexivity|now subst l|destruct A as [->| ->]; reflexivity]. }
      rewrite Z. cbn [filter]. rewrite Ev. cbn [List.length]. lia.
  - rewrite S. split.
    + intros y. rewrite flat_map_app, in_app_iff. intros [H|H]; [now apply I1|]. destruct x; try discriminate; destruct H.
    + intros w Hw. rewrite !filter_app, !app_length, (I2 w Hw). cbn [filter]. rewrite Ev. destruct x; try discriminate; cbn; lia.
Qed.
(** Each notification is given once, in the order in which they were asked for,
    and says whether the source is a value. *)
Theorem C108_notified : forall V E (tx : list (imev V E) -> N -> V -> V + E) m xs,
  signals (imrun tx m xs) = map (fun i => (i, match source m with inl _ => true | inr _ => false end)) (asked xs).
Proof.
  intros V E tx m xs. assert (N : inotify m = match source m with inl _ => true | inr _ => false end) by (induction m; auto).
  unfold signals, asked. induction xs as [|x xs IH] using rev_ind; [reflexivity|]. rewrite run_snoc, flat_map_app, map_app, <- IH.
  pose proof (step_spec tx m x (imrun tx m xs)) as S. destruct (evaluates x) eqn:Ev.
  - destruct S as (evs & r & l & O & A & ->). rewrite !flat_map_app. f_equal. rewrite (txs_none _ _ evs) by (auto; exact (outcome_txs _ _ _ _ _ O)). cbn [app].
    destruct x as [i s e q g| | | |i]; try discriminate; cbn [answer] in A; [subst l; destruct r; [destruct s|destruct e]; reflexivity|now subst l|destruct A as [->| ->]; reflexivity].
  - rewrite S, flat_map_app. f_equal. destruct x; try discriminate; cbn; [reflexivity|]. now rewrite N.
Qed.
(** *** A run: a value 7 that passes two transforms, and one that the second refuses. *)
Definition C108_tx (n : N) (v : N) : N + N := if v <? 20 then inl (v * 2 + n) else inr v.
Definition C108_m (v : N) : imono N N := IMap 5 (IMap 3 (IJust v)).
Definition C108_uses : list imop := [UNotify 1; USubscribe 2 true true true true; UAsync; UGet; USubscribe 3 true true false false; UBlock; UNotify 4].
Example C108_example :
  (forall id q f s e, In (USubscribe id s e q f) C108_uses -> s = true /\ e = true) /\ evaluates UBlock = true /\
  imrun (fun _ => C108_tx) (C108_m 7) C108_uses =
    [ENotified 1 true; ETx 3 7; ETx 5 17; EValue 2 39; ETx 3 7; ETx 5 17; EGot (inl 39); ETx 3 7; ETx 5 17; EValue 3 39; ETx 3 7; ETx 5 17; EClosed (inl 39); EBlocked (Some (inl 39)); ENotified 4 true] /\
  composed C108_tx (names (C108_m 7)) (source (C108_m 7)) = inl 39 /\
  imrun (fun _ => C108_tx) (IMap 8 (C108_m 9)) C108_uses =
    [ENotified 1 true; ETx 3 9; ETx 5 21; EFail 2 21; ETx 3 9; ETx 5 21; EGot (inr 21); ETx 3 9; ETx 5 21; EFail 3 21; ETx 3 9; ETx 5 21; EClosed (inr 21); EBlocked (Some (inr 21)); ENotified 4 true].
Proof.
  split; [|vm_compute; auto]. intros id q f s e H. cbn in H. repeat (destruct H as [H|H]; [try discriminate H; injection H as <- <- <- <- <-; auto|]). destruct H.
Qed.
(** The signal of a notification does not tell whether the mono fails. *)
Theorem C108_signal_refuted :
  ~ (forall V E (f : N -> V -> V + E) m id ok, In (ENotified id ok) (imrun (fun _ => f) m [UNotify id]) ->
     (ok = true <-> exists v, composed f (names m) (source m) = inl v)).
Proof. intros H. destruct (H N N C108_tx (C108_m 9) 1 true) as [X _]; [now left|]. destruct (X eq_refl) as (v & Hv). vm_compute in Hv. discriminate Hv. Qed.
(** A subscriber that gives Finally is not told the end, as it is by other monos. *)
Theorem C108_finally_refuted :
  ~ (forall V E (tx : list (imev V E) -> N -> V -> V + E) m id, exists ok, In (EFinal id ok) (imrun tx m [USubscribe id true true true true])).
Proof. intros H. destruct (H N N (fun _ => C108_tx) (IJust 7) 1) as (ok & [X|[]]). discriminate X. Qed.
(** A transform with state may tell two readers of one mono different things. *)
Theorem C108_readers_agree_refuted :
  ~ (forall V E (tx : list (imev V E) -> N -> V -> V + E) m xs a b, In (EGot a) (imrun tx m xs) -> In (EGot b) (imrun tx m xs) -> a = b).
Proof.
  intros H. specialize (H N N (fun t _ v => inl (v + len t)) (IMap 1 (IJust 7)) [UGet; UGet] (inl 7) (inl 9)). assert (X : @inl N N 7 = inl 9) by (apply H; vm_compute; tauto). discriminate X.
Qed.
Print Assumptions C108_every_use_evaluates.
Print Assumptions C108_told_once.
Print Assumptions C108_same_answer.
Print Assumptions C108_notified.
Print Assumptions C108_signal_refuted.
Print Assumptions C108_finally_refuted.
Print Assumptions C108_readers_agree_refuted.
