(** C88: the processor of a flux.  What is pushed goes to the latest subscriber
    only; what is pushed before the first one is lost. *)
From Verif Require Import Base MonoModel MonoFacts FluxModel FluxFacts FluxProps.

(** What the users of the processor do is observed: a push ([Next], [Complete]
    or [Error] of the processor), a call of [OnSubscribe], a call of
    [Subscribe], anything else. *)
Inductive pobs (V E : Type) := OPush (k : fcall V E) | OAnn (id : N) | OSub | OElse (n : N).
Arguments OPush {V E}. Arguments OAnn {V E}. Arguments OSub {V E}. Arguments OElse {V E}.

(** *** Specification: who should get what, in terms of what the users did.
    [n] is the number of subscriptions so far. *)
Section Spec.
Context {V E : Type}.
Notation event := (fevent V E (pobs V E)).
Fixpoint routed (n : nat) (t : list event) : list (nat * fcall V E) :=
  match t with
  | VObs (OPush k) :: t' => match n with 0%nat => routed n t' | S m => (m, k) :: routed n t' end
  | VObs OSub :: t' => routed (S n) t'
  | _ :: t' => routed n t'
  | [] => []
  end.
(** Announcements before the first subscription replace each other. *)
Fixpoint announced (n : nat) (kept : option N) (t : list event) : list (nat * N) :=
  match t with
  | VObs (OAnn id) :: t' => match n with 0%nat => announced n (Some id) t' | S m => (m, id) :: announced n kept t' end
  | VObs OSub :: t' => match kept with Some id => (n, id) :: announced (S n) None t' | None => announced (S n) None t' end
  | _ :: t' => announced n kept t'
  | [] => []
  end.
Definition to_sub (s : nat) (l : list (nat * fcall V E)) : list (fcall V E) := flat_map (fun p => if Nat.eqb (fst p) s then [snd p] else []) l.
(** The calls of subscription [s] other than its own cancellations. *)
Definition received (s : nat) (t : list event) : list (fcall V E) := filter (fun k => negb (is_cancel k)) (fcalls s t).

Fixpoint subscriptions (t : list event) : nat :=
  match t with VObs OSub :: t' => S (subscriptions t') | _ :: t' => subscriptions t' | [] => 0%nat end.
Fixpoint kept_ann (n : nat) (kept : option N) (t : list event) : option N :=
  match t with
  | VObs (OAnn id) :: t' => kept_ann n (match n with 0%nat => Some id | S _ => kept end) t'
  | VObs OSub :: t' => kept_ann (S n) None t'
  | _ :: t' => kept_ann n kept t'
  | [] => kept
  end.
Lemma subscriptions_app a b : subscriptions (a ++ b) = (subscriptions a + subscriptions b)%nat.
Proof. induction a as [|e a IH]; [reflexivity|]. destruct e; try exact IH. destruct o; cbn; rewrite IH; reflexivity. Qed.
Lemma routed_app a : forall n b, routed n (a ++ b) = routed n a ++ routed (n + subscriptions a) b.
Proof.
  induction a as [|e a IH]; intros n b; [cbn; now rewrite Nat.add_0_r|]. destruct e; try apply IH. destruct o; cbn [app routed subscriptions]; try apply IH.
  - destruct n; rewrite IH; reflexivity.
  - rewrite IH. now rewrite Nat.add_succ_r.
Qed.
Lemma announced_app a : forall n k b, announced n k (a ++ b) = announced n k a ++ announced (n + subscriptions a) (kept_ann n k a) b.
Proof.
  induction a as [|e a IH]; intros n k b; [cbn; now rewrite Nat.add_0_r|]. destruct e; try apply IH. destruct o; cbn [app announced subscriptions kept_ann]; try apply IH.
  - destruct n; rewrite IH; reflexivity.
  - rewrite Nat.add_succ_r. destruct k; rewrite IH; reflexivity.
Qed.
Lemma kept_app a : forall n k b, kept_ann n k (a ++ b) = kept_ann (n + subscriptions a) (kept_ann n k a) b.
Proof.
  induction a as [|e a IH]; intros n k b; [cbn; now rewrite Nat.add_0_r|]. destruct e; try apply IH. destruct o; cbn [app subscriptions kept_ann]; try apply IH.
  rewrite IH. now rewrite Nat.add_succ_r.
Qed.
Lemma to_sub_app s a b : to_sub s (a ++ b) = to_sub s a ++ to_sub s b.
Proof. apply flat_map_app. Qed.
Lemma received_app s a b : received s (a ++ b) = received s a ++ received s b.
Proof. unfold received, fcalls. now rewrite flat_map_app, filter_app. Qed.
(** Events that are no push, subscription or announcement. *)
Definition mild (e : event) : bool :=
  match e with VObs (OPush _) | VObs (OAnn _) | VObs OSub | VSubscribed _ _ | VSrcRequest _ _ => false | _ => true end.
Lemma mild_routed ev n : forallb mild ev = true -> routed n ev = [].
Proof. induction ev as [|e ev IH]; [reflexivity|]. cbn [forallb]. intros H. apply andb_prop in H as [H1 H2]. destruct e; try (now apply IH). destruct o; try discriminate H1. now apply IH. Qed.
Lemma mild_kept ev n k : forallb mild ev = true -> kept_ann n k ev = k.
Proof. induction ev as [|e ev IH]; [reflexivity|]. cbn [forallb]. intros H. apply andb_prop in H as [H1 H2]. destruct e; try (now apply IH). destruct o; try discriminate H1. now apply IH. Qed.
Lemma mild_subs ev : forallb mild ev = true -> subscriptions ev = 0%nat.
Proof. induction ev as [|e ev IH]; [reflexivity|]. cbn [forallb]. intros H. apply andb_prop in H as [H1 H2]. destruct e; try (now apply IH). destruct o; try discriminate H1. now apply IH. Qed.
Lemma mild_in ev s : forallb mild ev = true -> (forall b, ~ In (VSubscribed s b) ev) /\ (forall n, ~ In (VSrcRequest s n) ev).
Proof. rewrite forallb_forall. intros H. split; intros x X; apply H in X; discriminate X. Qed.
End Spec.

Section Proc.
Context {V E : Type}.
Notation O := (pobs V E).
Notation K := (fpcode V E).
Notation event := (fevent V E O).
Notation act := (fact V E O K).
Notation item := (fitem V E O K).
Notation conf := (fconf V E O K (option nat * option N)).
Variable subs : N -> option (list event -> Z -> list act) * option (list event -> list act).

(** *** Users of the processor: they push, announce, subscribe, request, cancel
    and register notifications, from goroutines and from callbacks alike. *)
Inductive usage : list act -> Prop :=
| u_nil : usage []
| u_push k l : k <> KCancel -> usage l -> usage (FObs (OPush k) :: FDo (FPCall k) :: l)
| u_ann id l : usage l -> usage (FObs (OAnn id) :: FDo (FPOnSubscribe id) :: l)
| u_sub h l : user h -> usage l -> usage (FObs OSub :: FSubscribe h :: l)
| u_cancel s l : usage l -> usage (FCall s KCancel :: l)
| u_request s n l : usage l -> usage (FRequest s n :: l)
| u_notify id fn l : (forall t g, usage (fn t g)) -> usage l -> usage (FNotify id fn :: l)
| u_else n l : usage l -> usage (FObs (OElse n) :: l)
with user : fhandlers V E O K -> Prop :=
| user_of nx cp er rq fi nr :
    (forall f, nx = Some f -> forall t v, usage (f t v)) -> (forall f, cp = Some f -> forall t, usage (f t)) ->
    (forall f, er = Some f -> forall t e, usage (f t e)) -> (forall f, rq = Some f -> forall t s, usage (f t s)) ->
    (forall f, fi = Some f -> forall t g, usage (f t g)) -> user (FHandlers nx cp er rq fi nr).
(** The announced request and cancel functions. *)
Definition announces : Prop := forall id,
  (forall f, fst (subs id) = Some f -> forall t n, usage (f t n)) /\ (forall f, snd (subs id) = Some f -> forall t, usage (f t)).
Hypothesis ann : announces.

Definition rq_ok (rq : option (list event -> Z -> list act)) : Prop := forall f, rq = Some f -> forall t n, usage (f t n).
Definition cn_ok (cn : option (list event -> list act)) : Prop := forall f, cn = Some f -> forall t, usage (f t).
Inductive sok : list item -> Prop :=
| k_nil : sok []
| k_push k r : k <> KCancel -> sok r -> sok (FAct (FObs (OPush k)) :: FAct (FDo (FPCall k)) :: r)
| k_ann id r : sok r -> sok (FAct (FObs (OAnn id)) :: FAct (FDo (FPOnSubscribe id)) :: r)
| k_sub h r : user h -> sok r -> sok (FAct (FObs OSub) :: FAct (FSubscribe h) :: r)
| k_cancel s r : sok r -> sok (FAct (FCall s KCancel) :: r)
| k_request s n r : sok r -> sok (FAct (FRequest s n) :: r)
| k_notify id fn r : (forall t g, usage (fn t g)) -> sok r -> sok (FAct (FNotify id fn) :: r)
| k_else n r : sok r -> sok (FAct (FObs (OElse n)) :: r)
| k_after s r : sok r -> sok (FAfterNext s :: r)
| k_handle s r : sok r -> sok (FHandle s :: r)
| k_final s g r : sok r -> sok (FFinal s g :: r)
| k_loop s g r : sok r -> sok (FLoop s g :: r)
| k_fire id fn g r : (forall t g, usage (fn t g)) -> sok r -> sok (FFire id fn g :: r)
| k_req s n r : sok r -> sok (FReq s n :: r)
| k_cfin s r : sok r -> sok (FCancelFin s :: r).
Lemma usage_sok l r : usage l -> sok r -> sok (facts l ++ r).
Proof. intros U. revert r. induction U; intros r Hr; cbn [facts map app]; try (constructor; auto; fail). exact Hr. Qed.

(** The subscriptions made so far. *)
Definition sub_ok (t : list event) (s : nat) (m : fsub V E O K) : Prop :=
  user (fs_h m) /\ rq_ok (fs_request m) /\ cn_ok (fs_cancel m) /\ (fs_request m <> None -> exists b, In (VSubscribed s b) t).
Definition cb_ok (cb : N * (list event -> signal -> list act)) : Prop := forall t g, usage (snd cb t g).
Definition store_at (n : nat) (kept : option N) : option nat * option N := match n with 0%nat => (None, kept) | S m => (Some m, None) end.
Definition kept (t : list event) : option N := kept_ann 0 None t.
(** What is left over of a step of a user: at the top of the stack. *)
Inductive top (t : list event) (len : nat) (st : option nat * option N) : list item -> list (nat * fcall V E) -> Prop :=
| t_idle r : sok r -> subscriptions t = len -> st = store_at len (kept t) -> top t len st r []
| t_call k r : k <> KCancel -> sok r -> subscriptions t = len -> st = store_at len (kept t) ->
    top t len st (FAct (FDo (FPCall k)) :: r) (match len with 0%nat => [] | S m => [(m, k)] end)
| t_sink m k r : k <> KCancel -> sok r -> len = S m -> subscriptions t = len -> st = store_at len (kept t) ->
    top t len st (FAct (FCall m k) :: r) [(m, k)]
| t_subscribe h kp r : user h -> sok r -> subscriptions t = S len -> st = store_at len kp -> (forall id, kp = Some id -> len = 0%nat -> In (0%nat, id) (announced 0 None t)) ->
    top t len st (FAct (FSubscribe h) :: r) []
| t_source m kp r : sok r -> len = S m -> subscriptions t = len -> st = store_at m kp -> (forall id, kp = Some id -> m = 0%nat -> In (0%nat, id) (announced 0 None t)) ->
    top t len st (FAct (FDo (FPSource m)) :: FHandle m :: r) []
| t_announce m id r : sok r -> len = S m -> subscriptions t = len -> st = store_at len (kept t) -> In (m, id) (announced 0 None t) ->
    top t len st (FAct (FDo (FPOnSubscribe id)) :: r) []
| t_announce0 id kp r : sok r -> len = 0%nat -> subscriptions t = 0%nat -> st = (None, kp) -> kept t = Some id ->
    top t len st (FAct (FDo (FPOnSubscribe id)) :: r) []
| t_onsub m id r : sok r -> len = S m -> subscriptions t = len -> st = store_at len (kept t) -> In (m, id) (announced 0 None t) ->
    top t len st (FAct (FOnSubscribe m (fst (subs id)) (snd (subs id))) :: r) [].
Record pinv (c : conf) : Prop := {
  p_th : Forall sok (fc_threads c);
  p_cb : Forall cb_ok (fc_callbacks c);
  p_subs : forall s m, nth_error (fc_subs c) s = Some m -> sub_ok (fc_trace c) s m;
  p_ann : forall s b, In (VSubscribed s b) (fc_trace c) -> exists id, In (s, id) (announced 0 None (fc_trace c));
  p_src : forall s n, In (VSrcRequest s n) (fc_trace c) -> exists b, In (VSubscribed s b) (fc_trace c);
  p_top : exists pend, top (fc_trace c) (List.length (fc_subs c)) (fc_store c) (fc_stack c) pend /\
            forall s, received s (fc_trace c) ++ to_sub s pend = to_sub s (routed 0 (fc_trace c)) }.

Lemma kept_S n (t : list event) : kept_ann (S n) None t = None.
Proof. revert n. induction t as [|e t IH]; intros n; [reflexivity|]. destruct e; try apply IH. destruct o; cbn [kept_ann]; apply IH. Qed.
Lemma sub_ok_mono t ev s m : sub_ok t s m -> sub_ok (t ++ ev) s m.
Proof. intros (A & B & C & D). repeat split; auto. intros X. destruct (D X) as [b Hb]. exists b. apply in_app_iff. auto. Qed.
Lemma announced_mono (t ev : list event) x : In x (announced 0 None t) -> In x (announced 0 None (t ++ ev)).
Proof. intros H. rewrite announced_app. apply in_app_iff. auto. Qed.

(** A step that shows nothing but calls. *)
Lemma mild_step (c c' : conf) ev st' new :
  pinv c -> forallb mild ev = true ->
  subscriptions (fc_trace c) = List.length (fc_subs c) -> fc_store c = store_at (List.length (fc_subs c)) (kept (fc_trace c)) ->
  (forall s, received s (fc_trace c) ++ received s ev = to_sub s (routed 0 (fc_trace c))) ->
  fc_trace c' = fc_trace c ++ ev -> fc_store c' = fc_store c -> fc_stack c' = st' -> sok st' ->
  fc_threads c' = fc_threads c ++ new -> Forall sok new -> Forall cb_ok (fc_callbacks c') ->
  List.length (fc_subs c') = List.length (fc_subs c) -> (forall s m, nth_error (fc_subs c') s = Some m -> sub_ok (fc_trace c) s m) ->
  pinv c'.
Proof.
  intros I Hev Hs Hst R Et Est Ek Sk Eth Hnew Hcb Hl Hsub.
  assert (C : forall s, (forall b, ~ In (VSubscribed s b) ev) /\ (forall n, ~ In (VSrcRequest s n) ev)) by (intros s; now apply mild_in).
  constructor.
  - rewrite Eth. apply Forall_app. split; [apply I|exact Hnew].
  - exact Hcb.
  - intros s m Hm. rewrite Et. apply sub_ok_mono. eauto.
  - intros s b X. rewrite Et in X |- *. apply in_app_iff in X as [X|X]; [|destruct (C s) as [A _]; destruct (A _ X)].
    destruct (p_ann _ I _ _ X) as [id Hid]. exists id. now apply announced_mono.
  - intros s n X. rewrite Et in X |- *. apply in_app_iff in X as [X|X]; [|destruct (C s) as [_ A]; destruct (A _ X)].
    destruct (p_src _ I _ _ X) as [b Hb]. exists b. apply in_app_iff. auto.
  - exists []. rewrite Et, Est, Ek, Hl. split.
    + apply t_idle; [exact Sk| |]; [rewrite subscriptions_app, (mild_subs ev Hev); lia|].
      unfold kept. rewrite kept_app, (mild_kept ev _ _ Hev). exact Hst.
    + intros s. cbn [to_sub flat_map]. rewrite received_app, routed_app, to_sub_app, (mild_routed ev _ Hev). cbn [to_sub flat_map]. rewrite !app_nil_r. apply R.
Qed.
Ltac fields := cbn [femit fpanic fc_subs fc_cur fc_callbacks fc_store fc_trace fc_stack fc_threads fc_panicked].
Lemma mset_ok t l s m m' : nth_error l s = Some m -> (forall j x, nth_error l j = Some x -> sub_ok t j x) -> sub_ok t s m' ->
  forall j x, nth_error (mset l s m') j = Some x -> sub_ok t j x.
Proof.
  intros Hs A B j x. rewrite nth_mset by (eapply nth_some_lt; eauto). destruct (Nat.eqb_spec s j) as [-> |Hn]; [|apply A]. intros X. injection X as <-. exact B.
Qed.
Lemma mset_len {A} (l : list A) s m x : nth_error l s = Some x -> List.length (mset l s m) = List.length l.
Proof. intros H. apply nth_some_lt in H. unfold mset. rewrite app_length. cbn [List.length]. rewrite firstn_length, skipn_length. lia. Qed.
Lemma app_split {A} (l : list A) i x : In x (firstn i l ++ skipn (S i) l) -> In x l.
Proof. revert i. induction l as [|y l IH]; intros [|i] H; cbn in *; auto. destruct H as [-> |H]; auto. right. now apply (IH i). Qed.
Lemma uses_next h f t v : user h -> fh_next h = Some f -> usage (f t v).
Proof. intros U H. destruct U. cbn in H. eauto. Qed.
Lemma uses_complete h f t : user h -> fh_complete h = Some f -> usage (f t).
Proof. intros U H. destruct U. cbn in H. eauto. Qed.
Lemma uses_error h f t e : user h -> fh_error h = Some f -> usage (f t e).
Proof. intros U H. destruct U. cbn in H. eauto. Qed.
Lemma uses_request h f t s : user h -> fh_request h = Some f -> usage (f t s).
Proof. intros U H. destruct U. cbn in H. eauto. Qed.
Lemma uses_finally h f t g : user h -> fh_finally h = Some f -> usage (f t g).
Proof. intros U H. destruct U. cbn in H. eauto. Qed.
Lemma same_ok t s m m' : sub_ok t s m -> fs_h m' = fs_h m -> fs_request m' = fs_request m -> fs_cancel m' = fs_cancel m -> sub_ok t s m'.
Proof. unfold sub_ok. intros H -> -> ->. exact H. Qed.
Lemma call_received s m k ev : k <> KCancel -> received s ev = [] -> received s (VCalled m k :: ev : list event) = to_sub s [(m, k)].
Proof.
  intros Hk He. change (VCalled m k :: ev) with ([VCalled m k : event] ++ ev). rewrite received_app, He, app_nil_r. unfold received. cbn. destruct (Nat.eqb m s); [|reflexivity]. cbn. destruct k; try reflexivity. congruence.
Qed.
Lemma gen_step (c c' : conf) ev new :
  pinv c -> fc_trace c' = fc_trace c ++ ev -> fc_threads c' = fc_threads c ++ new -> Forall sok new -> fc_callbacks c' = fc_callbacks c ->
  (forall s m, nth_error (fc_subs c') s = Some m -> sub_ok (fc_trace c ++ ev) s m) ->
  (forall s b, In (VSubscribed s b) ev -> exists id, In (s, id) (announced 0 None (fc_trace c ++ ev))) ->
  (forall s n, In (VSrcRequest s n) ev -> exists b, In (VSubscribed s b) (fc_trace c ++ ev)) ->
  (exists pend, top (fc_trace c ++ ev) (List.length (fc_subs c')) (fc_store c') (fc_stack c') pend /\
     forall s, received s (fc_trace c ++ ev) ++ to_sub s pend = to_sub s (routed 0 (fc_trace c ++ ev))) -> pinv c'.
Proof.
  intros I Et Eth Hnew Ecb Hsub A B T. constructor.
  - rewrite Eth. apply Forall_app. split; [apply I|exact Hnew].
  - rewrite Ecb. apply I.
  - rewrite Et. exact Hsub.
  - rewrite Et. intros s b X. apply in_app_iff in X as [X|X]; [|eauto]. destruct (p_ann _ I _ _ X) as [id Hid]. exists id. now apply announced_mono.
  - rewrite Et. intros s n X. apply in_app_iff in X as [X|X]; [|eauto]. destruct (p_src _ I _ _ X) as [b Hb]. exists b. apply in_app_iff. auto.
  - rewrite Et. exact T.
Qed.
Variable wasm : bool.
(** [mild_go ev new]: apply [mild_step]; what is left are the shape of the stack
    and the changed subscription. *)
Ltac side I := first [reflexivity|(intros; constructor; fail)|assumption|exact (p_cb _ I)|exact (p_subs _ I)|(eapply mset_len; eassumption)|idtac].
Ltac mild_go I ev new :=
  eapply (mild_step _ _ ev _ new I); fields; rewrite ?app_nil_r; [reflexivity|assumption|assumption|..]; side I.
Ltac same I m := apply (mset_ok _ _ _ m); [assumption|apply I|apply (same_ok _ _ m); [now apply (p_subs _ I)|reflexivity|reflexivity|reflexivity]].
Lemma pinv_step c i : pinv c -> pinv (fstep wasm fproc_source (fproc_code subs) c i).
Proof.
  intros I. unfold fstep. destruct (fc_panicked c) eqn:Hpan; [exact I|]. destruct (p_top _ I) as (pend & T & R).
  destruct (fc_stack c) as [|it rest] eqn:Hk.
  { destruct (nth_error (fc_threads c) i) as [th|] eqn:Hth; [|exact I]. inversion T; subst. pose proof (p_th _ I) as P. rewrite Forall_forall in P. constructor; fields; try apply I.
    - rewrite Forall_forall. intros x X. apply P. now apply app_split in X.
    - exists []. split; [|exact R]. apply t_idle; auto. apply P. eapply nth_error_In; eauto. }
  assert (IDLE : pend = [] -> forall s, received s (fc_trace c) = to_sub s (routed 0 (fc_trace c))) by (intros -> s; rewrite <- R; cbn; now rewrite app_nil_r).
  assert (QUIET : pend = [] -> forall ev, (forall s, received s ev = []) -> forall s, received s (fc_trace c) ++ received s ev = to_sub s (routed 0 (fc_trace c))) by (intros Hp ev He s; rewrite He, app_nil_r; auto).
  destruct it as [[s k|s rq cn|s n|h|id fn|o|k]|s|s|s g|s g|id fn g|s n|s]; cbn [do_fitem].
  - (* call of a sink *)
    unfold do_fcall. inversion T as [? Sk Hs Hst| |m k' r Hc Sk Hl Hs Hst| | | | |]; subst.
    + inversion Sk; subst. destruct (nth_error (fc_subs c) s) as [m|] eqn:Hm.
      * pose proof (p_subs _ I _ _ Hm) as (_ & _ & U3 & _). destruct (fs_cancel m) as [f|] eqn:Hf.
        -- mild_go I [VCalled s KCancel : event; VSrcCancel s] (@nil (list item)).
           ++ apply QUIET; [reflexivity|]. intros s'. unfold received. cbn. destruct (Nat.eqb s s'); reflexivity.
           ++ apply usage_sok; [now apply U3|]. now constructor.
           ++ same I m.
        -- mild_go I [VCalled s KCancel : event] (@nil (list item)).
           ++ apply QUIET; [reflexivity|]. intros s'. unfold received. cbn. destruct (Nat.eqb s s'); reflexivity.
           ++ now constructor.
           ++ same I m.
      * mild_go I (@nil event) (@nil (list item)).
    + destruct (nth_error (fc_subs c) s) as [m|] eqn:Hm; [|apply nth_error_None in Hm; lia].
      pose proof (p_subs _ I _ _ Hm) as (U & _).
      assert (RC : forall ev, (forall s', received s' ev = []) -> forall s', received s' (fc_trace c) ++ received s' (VCalled s k :: ev) = to_sub s' (routed 0 (fc_trace c))) by (intros ev He s'; rewrite call_received by auto; apply R).
      destruct (fs_closed m) eqn:Hcl.
      { replace (match k with KCancel => _ | _ => _ end) with (femit c (fc_subs c) [VCalled s k] rest []) by (destruct k; try reflexivity; congruence).
        mild_go I [VCalled s k : event] (@nil (list item)). apply RC. reflexivity. }
      destruct k as [v| |e|]; [| | |congruence].
      * destruct (fh_next (fs_h m)) as [f|] eqn:Hf.
        -- mild_go I [VCalled s (KNext v) : event; VOnNext s v] (@nil (list item)); [apply RC; reflexivity| |same I m].
           apply usage_sok; [eapply uses_next; eauto|now constructor].
        -- mild_go I [VCalled s (KNext v) : event] (@nil (list item)); [apply RC; reflexivity|now constructor|same I m].
      * destruct (fh_complete (fs_h m)) as [f|] eqn:Hf.
        -- mild_go I [VCalled s KComplete : event; VOnComplete s] (@nil (list item)); [apply RC; reflexivity| |same I m].
           apply usage_sok; [eapply uses_complete; eauto|now constructor].
        -- mild_go I [VCalled s KComplete : event] (@nil (list item)); [apply RC; reflexivity|now constructor|same I m].
      * destruct (fh_error (fs_h m)) as [f|] eqn:Hf.
        -- mild_go I [VCalled s (KError e) : event; VOnError s e] (@nil (list item)); [apply RC; reflexivity| |same I m].
           apply usage_sok; [eapply uses_error; eauto|now constructor].
        -- mild_go I [VCalled s (KError e) : event] (@nil (list item)); [apply RC; reflexivity|now constructor|same I m].
  - (* the announcement reaches the sink *)
    inversion T as [? Sk| | | | | | |m id r Sk Hl Hs Hst Hin]; subst; [inversion Sk|].
    unfold do_onsubscribe. destruct (nth_error (fc_subs c) s) as [m|] eqn:Hm; [|apply nth_error_None in Hm; lia].
    destruct (fs_closed m) eqn:Hcl; [mild_go I (@nil event) (@nil (list item))|].
    pose proof (p_subs _ I _ _ Hm) as (U1 & U2 & U3 & _). destruct (ann id) as [An Ac].
    assert (G : forall new st', Forall sok new -> sok st' ->
      pinv {| fc_subs := mset (fc_subs c) s {| fs_closed := false; fs_n := fs_n m; fs_err := fs_err m; fs_request := fst (subs id); fs_cancel := snd (subs id); fs_signal := fs_signal m; fs_h := fs_h m |};
              fc_cur := fc_cur c; fc_callbacks := fc_callbacks c; fc_store := fc_store c; fc_trace := fc_trace c ++ [VSubscribed s (if snd (subs id) then true else false)];
              fc_stack := st'; fc_threads := fc_threads c ++ new; fc_panicked := fc_panicked c |}).
    { intros new st' Hnew Hst'. apply (gen_step c _ [VSubscribed s (if snd (subs id) then true else false)] new I); fields; auto.
      - apply (mset_ok _ _ _ m); [assumption| |].
        + intros j x X. apply sub_ok_mono. now apply (p_subs _ I).
        + unfold sub_ok. cbn [fs_h fs_request fs_cancel]. split; [exact U1|]. split; [exact An|]. split; [exact Ac|]. intros _. eexists. apply in_app_iff. right. now left.
      - intros j b [X|[]]. injection X as <- _. exists id. now apply announced_mono.
      - intros j n [X|[]]. discriminate X.
      - exists []. rewrite (mset_len _ _ _ m Hm). split.
        + apply t_idle; [exact Hst'| |]; [rewrite subscriptions_app; cbn; lia|]. unfold kept. rewrite kept_app. exact Hst.
        + intros j. rewrite received_app, routed_app, to_sub_app. cbn [routed]. replace (received j [VSubscribed s (if snd (subs id) then true else false) : event]) with (@nil (fcall V E)) by reflexivity. rewrite app_nil_r. cbn [to_sub flat_map]. rewrite !app_nil_r. now apply IDLE. }
    destruct (fs_n m >? 0)%Z; [destruct wasm|]; unfold femit; apply G; auto; try (constructor; fail); try (constructor; auto; fail).
    constructor; [|constructor]. constructor. constructor.
  - (* request *)
    inversion T as [? Sk Hs Hst| | | | | | |]; subst. inversion Sk; subst. unfold do_request. destruct (nth_error (fc_subs c) s) as [m|] eqn:Hm; [|mild_go I (@nil event) (@nil (list item))].
    destruct (fs_request m) as [f|] eqn:Hf; [destruct wasm|].
    + mild_go I [VDemand s n : event] (@nil (list item)); [now constructor|same I m].
    + mild_go I [VDemand s n : event] [[FReq s n : item]]; [repeat constructor|same I m].
    + mild_go I [VDemand s n : event] (@nil (list item)); [same I m].
  - (* subscription *)
    inversion T as [? Sk| | |h' kp r Hu Sk Hs Hst Hin| | | |]; subst; [inversion Sk|].
    apply (gen_step c _ [] [] I); fields; rewrite ?app_nil_r; auto.
    + intros j x X. destruct (Nat.lt_ge_cases j (List.length (fc_subs c))) as [L|L].
      * rewrite nth_error_app1 in X by exact L. now apply (p_subs _ I).
      * rewrite nth_error_app2 in X by exact L. destruct (j - List.length (fc_subs c))%nat as [|d]; [|destruct d; discriminate X]. injection X as <-. unfold sub_ok, rq_ok, cn_ok. cbn. split; [exact Hu|]. repeat split; try discriminate. congruence.
    + intros j b [].
    + intros j n [].
    + exists []. rewrite app_length. cbn [List.length]. split; [|intros j; cbn [to_sub flat_map]; rewrite app_nil_r; now apply IDLE].
      cbn [fproc_source facts map app]. apply (t_source _ _ _ _ kp); auto; lia.
  - (* notification *)
    inversion T as [? Sk Hs Hst| | | | | | |]; subst. inversion Sk; subst. unfold do_fnotify.
    destruct (match fc_cur c with Some _ => _ | None => _ end) as [m0|]; [destruct (fs_closed m0)|].
    + mild_go I [VRegistered id : event] (@nil (list item)); [now constructor].
    + mild_go I [VRegistered id : event] (@nil (list item)). apply Forall_app. split; [apply I|]. constructor; [assumption|constructor].
    + mild_go I [VRegistered id : event] (@nil (list item)). apply Forall_app. split; [apply I|]. constructor; [assumption|constructor].
  - (* what the users do *)
    inversion T as [? Sk Hs Hst| | | | | | |]; subst. inversion Sk as [|k r Hc Hr|id r Hr|h r Hu Hr| | | |n r Hr| | | | | | |]; subst.
    + apply (gen_step c _ [VObs (OPush k)] [] I); fields; rewrite ?app_nil_r; auto.
      * intros j x X. apply sub_ok_mono. now apply (p_subs _ I).
      * intros j b [X|[]]; discriminate X.
      * intros j n [X|[]]; discriminate X.
      * eexists. split.
        -- apply t_call; auto; [rewrite subscriptions_app; cbn; lia|]. unfold kept. rewrite kept_app. exact Hst.
        -- intros j. rewrite received_app, routed_app, to_sub_app, Hs. replace (received j [VObs (OPush k) : event]) with (@nil (fcall V E)) by reflexivity. rewrite app_nil_r, IDLE by reflexivity. f_equal.
    + apply (gen_step c _ [VObs (OAnn id)] [] I); fields; rewrite ?app_nil_r; auto.
      * intros j x X. apply sub_ok_mono. now apply (p_subs _ I).
      * intros j b [X|[]]; discriminate X.
      * intros j n [X|[]]; discriminate X.
      * exists []. split.
        -- destruct (List.length (fc_subs c)) as [|m] eqn:Hl.
           ++ apply (t_announce0 _ _ _ _ (kept (fc_trace c))); auto; [rewrite subscriptions_app; cbn; lia|]. unfold kept. rewrite kept_app, Hs. reflexivity.
           ++ apply (t_announce _ _ _ m); auto; [rewrite subscriptions_app; cbn; lia|].
              rewrite announced_app, Hs. apply in_app_iff. right. now left.
        -- intros j. rewrite received_app, routed_app, to_sub_app. cbn [routed]. replace (received j [VObs (OAnn id) : event]) with (@nil (fcall V E)) by reflexivity. cbn [to_sub flat_map]. rewrite !app_nil_r. now apply IDLE.
    + apply (gen_step c _ [VObs OSub] [] I); fields; rewrite ?app_nil_r; auto.
      * intros j x X. apply sub_ok_mono. now apply (p_subs _ I).
      * intros j b [X|[]]; discriminate X.
      * intros j n [X|[]]; discriminate X.
      * exists []. split.
        -- apply (t_subscribe _ _ _ h (kept (fc_trace c))); auto; [rewrite subscriptions_app; cbn; lia|].
           intros id Hid Hl. rewrite announced_app, Hs, Hl. apply in_app_iff. right. cbn [Nat.add announced]. unfold kept in Hid. rewrite Hid. now left.
        -- intros j. rewrite received_app, routed_app, to_sub_app. cbn [routed]. replace (received j [VObs OSub : event]) with (@nil (fcall V E)) by reflexivity. cbn [to_sub flat_map]. rewrite !app_nil_r. now apply IDLE.
    + mild_go I [VObs (OElse n) : event] (@nil (list item)).
  - (* the processor *)
    inversion T as [? Sk| k' r Hc Sk Hs Hst| | |m kp r Sk Hl Hs Hst Hin|m id r Sk Hl Hs Hst Hin|id kp r Sk Hl Hs Hst Hk0|]; subst; [inversion Sk| | | |].
    + unfold fproc_code. destruct (fc_store c) as [snk sb] eqn:Est. destruct (List.length (fc_subs c)) as [|m] eqn:Hl; cbn [store_at] in Hst; injection Hst as -> ->.
      * apply (gen_step c _ [] [] I); fields; rewrite ?app_nil_r; auto; [apply I|intros ? ? []|intros ? ? []|]. exists []. split; [|exact R]. rewrite Hl. apply t_idle; auto.
      * apply (gen_step c _ [] [] I); fields; rewrite ?app_nil_r; auto; [apply I|intros ? ? []|intros ? ? []|]. exists [(m, k')]. split; [|exact R]. rewrite Hl. apply t_sink; auto.
    + unfold fproc_code. rewrite Hst. destruct m as [|m]; cbn [store_at].
      * destruct kp as [id|].
        -- apply (gen_step c _ [] [] I); fields; rewrite ?app_nil_r; auto; [apply I|intros ? ? []|intros ? ? []|]. exists []. split; [|exact R]. rewrite Hl. apply t_onsub; auto; [constructor; auto|]. congruence.
        -- apply (gen_step c _ [] [] I); fields; rewrite ?app_nil_r; auto; [apply I|intros ? ? []|intros ? ? []|]. exists []. split; [|exact R]. rewrite Hl. apply t_idle; [constructor; auto|congruence|reflexivity].
      * apply (gen_step c _ [] [] I); fields; rewrite ?app_nil_r; auto; [apply I|intros ? ? []|intros ? ? []|]. exists []. split; [|exact R]. rewrite Hl. apply t_idle; [constructor; auto|congruence|reflexivity].
    + unfold fproc_code. rewrite Hst, Hl. cbn [store_at].
      apply (gen_step c _ [] [] I); fields; rewrite ?app_nil_r; auto; [apply I|intros ? ? []|intros ? ? []|]. exists []. split; [|exact R]. rewrite Hl. apply t_onsub; auto. congruence.
    + unfold fproc_code. rewrite Hst.
      apply (gen_step c _ [] [] I); fields; rewrite ?app_nil_r; auto; [apply I|intros ? ? []|intros ? ? []|]. exists []. split; [|exact R]. rewrite Hl. apply t_idle; [auto|congruence|]. rewrite Hk0. reflexivity.
  - inversion T as [? Sk Hs Hst| | | | | | |]; subst. inversion Sk; subst. destruct (nth_error (fc_subs c) s) as [m0|]; [destruct (fs_n m0 =? 0)%Z|].
    all: mild_go I (@nil event) (@nil (list item)); now constructor.
  - inversion T as [? Sk Hs Hst| | | | | | |]; subst. inversion Sk; subst. unfold do_handle. destruct (nth_error (fc_subs c) s) as [m|] eqn:Hm; [|mild_go I (@nil event) (@nil (list item))].
    pose proof (p_subs _ I _ _ Hm) as (U & _). destruct (fh_norequest (fs_h m)); [mild_go I (@nil event) (@nil (list item))|].
    destruct (fh_request (fs_h m)) as [f|] eqn:Hf.
    + mild_go I [VOnRequest s : event] (@nil (list item)). apply usage_sok; [eapply uses_request; eauto|assumption].
    + mild_go I (@nil event) (@nil (list item)). now constructor.
  - inversion T as [? Sk Hs Hst| | | | | | |]; subst. inversion Sk; subst. unfold do_ffinal. destruct (nth_error (fc_subs c) s) as [m|] eqn:Hm; [|mild_go I (@nil event) (@nil (list item))].
    pose proof (p_subs _ I _ _ Hm) as (U & _). destruct (fh_finally (fs_h m)) as [f|] eqn:Hf.
    + mild_go I [VSignal s g : event; VFinally s g] (@nil (list item)); [|same I m]. apply usage_sok; [eapply uses_finally; eauto|now constructor].
    + mild_go I [VSignal s g : event] (@nil (list item)); [now constructor|same I m].
  - inversion T as [? Sk Hs Hst| | | | | | |]; subst. inversion Sk; subst.
    mild_go I (@nil event) (@nil (list item)). pose proof (p_cb _ I) as P. clear - P H0. induction P as [|cb l Hcb _ IH]; [assumption|]. cbn [map app]. constructor; [exact Hcb|exact IH].
  - inversion T as [? Sk Hs Hst| | | | | | |]; subst. inversion Sk; subst.
    mild_go I [VFired id g : event] (@nil (list item)). apply usage_sok; auto.
  - (* the request function *)
    inversion T as [? Sk Hs Hst| | | | | | |]; subst. inversion Sk; subst. unfold do_req. destruct (nth_error (fc_subs c) s) as [m|] eqn:Hm; [|mild_go I (@nil event) (@nil (list item))].
    pose proof (p_subs _ I _ _ Hm) as (_ & U2 & _ & U4). destruct (fs_request m) as [f|] eqn:Hf.
    + apply (gen_step c _ [VSrcRequest s n] [] I); fields; rewrite ?app_nil_r; auto.
      * intros j x X. apply sub_ok_mono. now apply (p_subs _ I).
      * intros j b [X|[]]; discriminate X.
      * intros j n' [X|[]]. injection X as <- <-. destruct (U4 ltac:(discriminate)) as [b Hb]. exists b. apply in_app_iff. auto.
      * exists []. split.
        -- apply t_idle; [|rewrite subscriptions_app; cbn; lia|unfold kept; rewrite kept_app; exact Hst]. apply usage_sok; [now apply U2|assumption].
        -- intros j. rewrite received_app, routed_app, to_sub_app. cbn [routed]. replace (received j [VSrcRequest s n : event]) with (@nil (fcall V E)) by reflexivity. cbn [to_sub flat_map]. rewrite !app_nil_r. now apply IDLE.
    + constructor; fields; try apply I.
  - inversion T as [? Sk Hs Hst| | | | | | |]; subst. inversion Sk; subst. unfold do_cancelfin. destruct (nth_error (fc_subs c) s) as [m|] eqn:Hm; [|mild_go I (@nil event) (@nil (list item))].
    pose proof (p_subs _ I _ _ Hm) as (U & _). destruct (fh_finally (fs_h m)) as [f|] eqn:Hf.
    + mild_go I [VFinally s SigCancel : event] (@nil (list item)). apply usage_sok; [eapply uses_finally; eauto|assumption].
    + mild_go I (@nil event) (@nil (list item)).
Qed.
Lemma pinv_run sched c : pinv c -> pinv (frun wasm fproc_source (fproc_code subs) sched c).
Proof. revert c. induction sched as [|i sched IH]; intros c I; [exact I|]. cbn. apply IH. now apply pinv_step. Qed.
Lemma pinv_init threads : Forall usage threads -> pinv (finit (None, None) threads).
Proof.
  intros H. constructor; cbn.
  - induction H as [|th l H _ IH]; constructor; auto. rewrite <- (app_nil_r (facts th)). apply usage_sok; [assumption|constructor].
  - constructor.
  - intros [|s] m X; discriminate X.
  - intros s b [].
  - intros s n [].
  - exists []. split; [|reflexivity]. apply t_idle; [constructor|reflexivity|reflexivity].
Qed.
End Proc.
Arguments usage {V E}.
Arguments user {V E}.
Arguments announces {V E}.

Definition processor {V E} (subs : N -> option (list (fevent V E (pobs V E)) -> Z -> list (fact V E (pobs V E) (fpcode V E))) * option (list (fevent V E (pobs V E)) -> list (fact V E (pobs V E) (fpcode V E))))
  (wasm : bool) (threads : list (list (fact V E (pobs V E) (fpcode V E)))) (sched : list nat) : fconf V E (pobs V E) (fpcode V E) (option nat * option N) :=
  frun wasm fproc_source (fproc_code subs) sched (finit (None, None) threads).
Lemma processor_inv V E subs wasm (threads : list (list (fact V E (pobs V E) (fpcode V E)))) sched :
  announces subs -> Forall usage threads -> pinv subs (processor subs wasm threads sched).
Proof. intros A U. apply pinv_run; [exact A|]. now apply pinv_init. Qed.

(** Whenever no goroutine is inside a call: every push went to the subscription
    that was the latest at that time, to no other, in order. *)
Theorem C88_pushes_go_to_latest_subscriber :
  forall V E subs wasm (threads : list (list (fact V E (pobs V E) (fpcode V E)))) sched s,
    announces subs -> Forall usage threads ->
    let c := processor subs wasm threads sched in
    fc_stack c = [] -> received s (fc_trace c) = to_sub s (routed 0 (fc_trace c)).
Proof.
  intros V E subs wasm threads sched s A U c Hk. destruct (processor_inv V E subs wasm threads sched A U) as [_ _ _ _ _ (pend & T & R)]. fold c in T, R. rewrite Hk in T. inversion T; subst. specialize (R s). cbn in R. now rewrite app_nil_r in R.
Qed.
Lemma filter_all {A} (f : A -> bool) l : (forall x, In x l -> f x = true) -> filter f l = l.
Proof. induction l as [|x l IH]; intros H; [reflexivity|]. cbn. rewrite (H x) by now left. f_equal. apply IH. intros y Y. apply H. now right. Qed.
(** A subscriber that does not cancel sees these pushes up to the first
    completion or error. *)
Theorem C88_subscriber_sees :
  forall V E subs wasm (threads : list (list (fact V E (pobs V E) (fpcode V E)))) sched s m,
    announces subs -> Forall usage threads ->
    let c := processor subs wasm threads sched in
    fc_stack c = [] -> nth_error (fc_subs c) s = Some m -> ~ In KCancel (fcalls s (fc_trace c)) ->
    delivered s (fc_trace c) = flat_map (visible (fs_h m)) (effective (to_sub s (routed 0 (fc_trace c)))).
Proof.
  intros V E subs wasm threads sched s m A U c Hk Hm Hc.
  pose proof (C88_pushes_go_to_latest_subscriber V E subs wasm threads sched s A U Hk) as X. fold c in X. rewrite <- X.
  unfold received. rewrite filter_all.
  - apply (C51_effective_calls_delivered V E (pobs V E) (fpcode V E) (option nat * option N) wasm fproc_source (fproc_code subs) (None, None) threads sched s m Hm).
  - intros k Hin. destruct k; try reflexivity. destruct (Hc Hin).
Qed.
(** Unlike a mono's processor (C50), this one keeps nothing: results pushed
    before the first subscription are seen by nobody, and if nothing is pushed
    later nobody is ever told of the end. *)
Theorem C88_early_results_lost_refuted :
  forall V E subs wasm (threads : list (list (fact V E (pobs V E) (fpcode V E)))) sched a b,
    announces subs -> Forall usage threads ->
    let c := processor subs wasm threads sched in
    fc_stack c = [] -> fc_trace c = a ++ b -> subscriptions a = 0%nat -> (forall k, ~ In (VObs (OPush k)) b) ->
    forall s, delivered s (fc_trace c) = [] /\ ends s (fc_trace c) = [].
Proof.
  intros V E subs wasm threads sched a b A U c Hk Ht Ha Hb s.
  assert (Hr : received s (fc_trace c) = []).
  { pose proof (C88_pushes_go_to_latest_subscriber V E subs wasm threads sched s A U Hk) as X. fold c in X. rewrite X, Ht, routed_app, Ha.
    assert (R1 : routed 0 a = []). { clear - Ha. induction a as [|e a IH]; [reflexivity|]. destruct e; try (now apply IH). destruct o; cbn in *; try (now apply IH). discriminate Ha. }
    rewrite R1. cbn [app Nat.add]. clear - Hb. generalize 0%nat at 1. induction b as [|e b IH]; intros n; [reflexivity|].
    assert (IH' : forall n, to_sub s (routed n b) = []) by (intros n'; apply IH; intros k X; apply (Hb k); now right).
    destruct e; try apply IH'. destruct o; cbn [routed]; try apply IH'. destruct (Hb k). now left. }
  assert (Hc : forall k, In k (fcalls s (fc_trace c)) -> k = KCancel).
  { intros k X. destruct k; [| | |reflexivity]; exfalso; assert (Y : In _ (received s (fc_trace c))) by (unfold received; apply filter_In; split; [exact X|reflexivity]); rewrite Hr in Y; destruct Y. }
  pose proof (proj1 (finv_run wasm fproc_source (fproc_code subs) sched _ (finv_init wasm (None, None) threads)) s) as I. cbv zeta in I. change (frun wasm fproc_source (fproc_code subs) sched (finit (None, None) threads)) with c in I.
  destruct (nth_error (fc_subs c) s) as [m|] eqn:Hm.
  - split.
    + rewrite (i_deliv _ _ _ _ _ _ I). destruct (fcalls s (fc_trace c)) as [|k ks]; [reflexivity|]. rewrite (Hc k ltac:(now left)). reflexivity.
    + destruct (C51_finally_once V E (pobs V E) (fpcode V E) (option nat * option N) wasm fproc_source (fproc_code subs) (None, None) threads sched s m Hm) as [[X|X] _]; [exact X|]. change (frun wasm fproc_source (fproc_code subs) sched (finit (None, None) threads)) with c in X. rewrite X.
      destruct (fcalls s (fc_trace c)) as [|k ks]; [reflexivity|]. rewrite (Hc k ltac:(now left)). reflexivity.
  - destruct I as [Q _]. split; [now rewrite q_deliv|]. unfold ends. now rewrite q_finals.
Qed.
(** The source is asked for values, and told to stop, only for a subscription
    its announcement was routed to: the one current at the time, or the first one
    for the last announcement made before it.  A later subscriber's requests
    reach nobody. *)
Theorem C88_requests_need_an_announcement :
  forall V E subs wasm (threads : list (list (fact V E (pobs V E) (fpcode V E)))) sched s,
    announces subs -> Forall usage threads ->
    let t := fc_trace (processor subs wasm threads sched) in
    (forall id, ~ In (s, id) (announced 0 None t)) ->
    (forall b, ~ In (VSubscribed s b) t) /\ (forall n, ~ In (VSrcRequest s n) t).
Proof.
  intros V E subs wasm threads sched s A U t Hn. pose proof (processor_inv V E subs wasm threads sched A U) as I.
  assert (X : forall b, ~ In (VSubscribed s b) t) by (intros b X; destruct (p_ann _ _ I _ _ X) as [id Hid]; exact (Hn id Hid)).
  split; [exact X|]. intros n Y. destruct (p_src _ _ I _ _ Y) as [b Hb]. exact (X b Hb).
Qed.
(** Two goroutines: one announces, pushes 1, subscribes, pushes 2 and 3,
    subscribes again, pushes 4, completes; the other pushes 5 and requests for
    both.  The first subscriber's callback pushes on. *)
Definition c88_h (push : bool) : fhandlers N N (pobs N N) (fpcode N N) :=
  FHandlers (Some (fun _ v => if push && (v =? 2) then [FObs (OPush (KNext 9)); FDo (FPCall (KNext 9))] else [])) (Some (fun _ => [])) (Some (fun _ _ => [])) None (Some (fun _ _ => [])) false.
Definition c88_push (k : fcall N N) : list (fact N N (pobs N N) (fpcode N N)) := [FObs (OPush k); FDo (FPCall k)].
Definition c88_subs (id : N) : option (list (fevent N N (pobs N N)) -> Z -> list (fact N N (pobs N N) (fpcode N N))) * option (list (fevent N N (pobs N N)) -> list (fact N N (pobs N N) (fpcode N N))) :=
  (Some (fun _ n => [FObs (OElse id)]), None).
Definition c88_threads : list (list (fact N N (pobs N N) (fpcode N N))) :=
  [[FObs (OAnn 7); FDo (FPOnSubscribe 7)] ++ c88_push (KNext 1) ++ [FObs OSub; FSubscribe (c88_h true)] ++ c88_push (KNext 2) ++ c88_push (KNext 3);
   [FObs OSub; FSubscribe (c88_h false)] ++ c88_push (KNext 4) ++ c88_push KComplete ++ c88_push (KNext 6)].
Definition c88_conf := processor c88_subs false c88_threads (repeat 0%nat 60).
Example C88_example :
  announces c88_subs /\ Forall usage c88_threads /\ fc_stack c88_conf = [] /\ fc_panicked c88_conf = false /\
  routed 0 (fc_trace c88_conf) = [(0%nat, KNext 2); (0%nat, KNext 9); (0%nat, KNext 3); (1%nat, KNext 4); (1%nat, KComplete); (1%nat, KNext 6)] /\
  delivered 0 (fc_trace c88_conf) = [ONext 2; ONext 9; ONext 3] /\ delivered 1 (fc_trace c88_conf) = [ONext 4; OComplete] /\
  announced 0 None (fc_trace c88_conf) = [(0%nat, 7)] /\ existsb (fun e => match e with VSrcRequest 0 _ => true | _ => false end) (fc_trace c88_conf) = true.
Proof.
  assert (U : forall b, user (c88_h b)) by (intros b; constructor; intros f X; first [discriminate X|injection X as <-]; intros; try destruct (b && (v =? 2)); repeat constructor; discriminate).
  split; [|split].
  - intros id. split; intros f X; [injection X as <-; intros; repeat constructor|discriminate X].
  - unfold c88_threads, c88_push. cbn [app]. repeat (constructor; try apply U; try discriminate).
  - vm_compute. repeat split.
Qed.
(** Everything pushed before the subscription: nothing arrives. *)
Example C88_lost_example :
  let c := processor c88_subs false [c88_push (KNext 1) ++ c88_push KComplete ++ [FObs OSub; FSubscribe (c88_h false)]] (repeat 0%nat 40) in
  fc_stack c = [] /\ subscriptions (fc_trace c) = 1%nat /\ delivered 0 (fc_trace c) = [] /\ ends 0 (fc_trace c) = [].
Proof. vm_compute. repeat split. Qed.
Print Assumptions C88_pushes_go_to_latest_subscriber.
Print Assumptions C88_subscriber_sees.
Print Assumptions C88_early_results_lost_refuted.
Print Assumptions C88_requests_need_an_announcement.
