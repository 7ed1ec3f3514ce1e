(** C106: the flux of a remote stream as its user sees it. *)
From Verif Require Import Base RemoteFluxModel.
From Coq Require Import List Lia ZArith.

Section C106.
Context {V E : Type}.
Notation state := (@rflux V E).
Notation op := (@fop V E).
Notation ev := (@fev V E).
(** ** Specification *)
(** The frames sent: the request ([inl]) or more demand ([inr]). *)
Definition wire (t : list ev) : list (Z + Z) := flat_map (fun e => match e with Opened n => [inl n] | Requested n => [inr n] | _ => [] end) t.
Definition arrives (x : op) : bool := match x with FValue _ | FEnd _ => true | _ => false end.
Definition awaits (x : op) : Prop := match x with FAsync | FNotify _ | FRun _ | FValue _ | FEnd _ => True | _ => False end.
Definition notifies (c : nat) (x : op) : bool := match x with FNotify c' => (c =? c')%nat | _ => false end.
Definition notified (c : nat) (e : ev) : bool := match e with FNotified c' _ => (c =? c')%nat | _ => false end.
Definition signals (t : list ev) : list bool := flat_map (fun e => match e with FNotified _ b => [b] | _ => [] end) t.

(** ** Facts *)
Lemma run_app : forall xs ys (s : state), rf_run (xs ++ ys) s = match rf_run xs s with Some s' => rf_run ys s' | None => None end.
Proof. induction xs as [|x xs IH]; intros ys s; [reflexivity|]. cbn. destruct (rf_step s x); [apply IH|reflexivity]. Qed.
Lemma run_snoc : forall xs x (s s' : state), rf_run (xs ++ [x]) s = Some s' -> exists m, rf_run xs s = Some m /\ rf_step m x = Some s'.
Proof. intros xs x s s' H. rewrite run_app in H. destruct (rf_run xs s) as [m|]; [|discriminate]. exists m. split; [reflexivity|]. cbn in H. destruct (rf_step m x); [exact H|discriminate]. Qed.
Lemma run_ind : forall (P : list op -> state -> Prop) s0, P [] s0 -> (forall xs x s s', P xs s -> rf_step s x = Some s' -> P (xs ++ [x]) s') ->
  forall xs s, rf_run xs s0 = Some s -> P xs s.
Proof.
  intros P s0 H0 Hs xs. induction xs as [|x xs IH] using rev_ind; intros s H; [injection H as <-; exact H0|].
  destruct (run_snoc _ _ _ _ H) as (m & H1 & H2). eapply Hs; eauto.
Qed.
Lemma wire_app : forall a b, wire (a ++ b) = wire a ++ wire b.
Proof. intros. apply flat_map_app. Qed.
Lemma splice_len : forall A (n : nat) (x : A) l, (n < List.length l)%nat -> List.length (firstn n l ++ x :: skipn (S n) l) = List.length l.
Proof. intros A n x l H. rewrite app_length. cbn [List.length]. rewrite firstn_length, skipn_length. lia. Qed.
Lemma splice_nth : forall A (n : nat) (x : A) l, (n < List.length l)%nat -> nth_error (firstn n l ++ x :: skipn (S n) l) n = Some x.
Proof. intros A n x l H. rewrite nth_error_app2 by (rewrite firstn_length; lia). rewrite firstn_length. replace (n - Nat.min n (List.length l))%nat with 0%nat by lia. reflexivity. Qed.
Lemma splice_other : forall A (n i : nat) (x : A) l, i <> n -> (n < List.length l)%nat -> nth_error (firstn n l ++ x :: skipn (S n) l) i = nth_error l i.
Proof.
  intros A n. induction n as [|n IH]; intros i x l Hi Hn; (destruct l as [|y l]; [cbn in Hn; lia|]).
  - destruct i as [|i]; [lia|reflexivity].
  - destruct i as [|i]; [reflexivity|]. cbn [firstn skipn app nth_error]. cbn in Hn. apply (IH i x l); lia.
Qed.

(** What [ask] and its callers leave alone. *)
Record same (s s' : state) : Prop := {
  sm_trace : rf_trace s' = rf_trace s; sm_first : rf_first s' = rf_first s; sm_complete : rf_complete s' = rf_complete s; sm_subscribed : rf_subscribed s' = rf_subscribed s;
  sm_holds : rf_holds s' = rf_holds s; sm_callbacks : rf_callbacks s' = rf_callbacks s; sm_len : List.length (rf_subs s') = List.length (rf_subs s);
  sm_sub : forall i x, nth_error (rf_subs s) i = Some x -> exists y, nth_error (rf_subs s') i = Some y /\ fs_owner y = fs_owner x /\ fs_end y = fs_end x /\ fs_wired y = fs_wired x /\ fs_asks y = fs_asks x }.
Lemma same_refl : forall s, same s s.
Proof. intros s. constructor; auto. intros i x H. exists x. auto. Qed.
Lemma ask_same : forall i n (s : state), same s (ask i n s).
Proof.
  intros i n s. unfold ask. destruct (nth_error (rf_subs s) i) as [x|] eqn:X; [|apply same_refl].
  assert (L : (i < List.length (rf_subs s))%nat) by (apply nth_error_Some; congruence).
  assert (K : same s (set_sub i {| fs_owner := fs_owner x; fs_end := fs_end x; fs_wired := fs_wired x; fs_n := fs_n x + n; fs_asks := fs_asks x |} s)).
  { constructor; try reflexivity; cbn [set_sub rf_subs]; [now apply splice_len|]. intros j y Hy. destruct (Nat.eq_dec j i) as [->|Ne].
    - rewrite X in Hy. injection Hy as <-. eexists. split; [now apply splice_nth|]. auto.
    - exists y. rewrite splice_other by auto. auto. }
  destruct (fs_wired x); [|exact K]. destruct K. constructor; auto.
Qed.
Lemma ask_goroutines : forall i n (s : state), rf_goroutines (ask i n s) = rf_goroutines s ++ match nth_error (rf_subs s) i with Some x => if fs_wired x then [GRequest n] else [] | None => [] end.
Proof. intros i n s. unfold ask. destruct (nth_error (rf_subs s) i) as [x|]; [|now rewrite app_nil_r]. destruct (fs_wired x); [reflexivity|]. now rewrite app_nil_r. Qed.
Lemma again_same : forall i (s : state), same s (ask_again i s).
Proof. intros i s. unfold ask_again. destruct (nth_error (rf_subs s) i) as [x|]; [|apply same_refl]. destruct (fs_asks x); [apply ask_same|apply same_refl]. Qed.
Lemma again_goroutines : forall i (s : state), rf_goroutines (ask_again i s) = rf_goroutines s ++
  match nth_error (rf_subs s) i with Some x => match fs_asks x with Some n => if fs_wired x then [GRequest n] else [] | None => [] end | None => [] end.
Proof.
  intros i s. unfold ask_again. destruct (nth_error (rf_subs s) i) as [x|] eqn:X; [|now rewrite app_nil_r]. destruct (fs_asks x); [|now rewrite app_nil_r].
  rewrite ask_goroutines, X. reflexivity.
Qed.
(** A subscription. *)
Lemma inner_after : forall w a (s : state), let s' := inner_subscribe w a s in
  rf_trace s' = rf_trace s /\ rf_first s' = rf_first s /\ rf_complete s' = rf_complete s /\ rf_subscribed s' = rf_subscribed s /\ rf_holds s' = false /\ rf_callbacks s' = rf_callbacks s /\
  rf_goroutines s' = rf_goroutines s ++ match a with Some n => if rf_holds s then [GRequest n] else [] | None => [] end /\
  List.length (rf_subs s') = S (List.length (rf_subs s)) /\
  (exists y, nth_error (rf_subs s') (List.length (rf_subs s)) = Some y /\ fs_owner y = w /\ fs_end y = None /\ fs_wired y = rf_holds s /\ fs_asks y = a) /\
  (forall i x, nth_error (rf_subs s) i = Some x -> exists y, nth_error (rf_subs s') i = Some y /\ fs_owner y = fs_owner x /\ fs_end y = fs_end x /\ fs_wired y = fs_wired x /\ fs_asks y = fs_asks x).
Proof.
  intros w a s s'. subst s'. unfold inner_subscribe. set (x := {| fs_owner := w; fs_end := None; fs_wired := rf_holds s; fs_n := 0; fs_asks := a |}). set (t := {| rf_subscribed := _ |}).
  destruct (again_same (List.length (rf_subs s)) t) as [S1 S2 S3 S4 S5 S6 S7 S8].
  assert (N : nth_error (rf_subs t) (List.length (rf_subs s)) = Some x) by (cbn; rewrite nth_error_app2, Nat.sub_diag by lia; reflexivity).
  repeat split; auto.
  - rewrite again_goroutines, N. reflexivity.
  - rewrite S7. cbn. rewrite app_length. cbn. lia.
  - destruct (S8 _ _ N) as (y & Y & ? & ? & ? & ?). exists y. auto.
  - intros i y H. apply S8. cbn. rewrite nth_error_app1; [exact H|]. apply nth_error_Some. congruence.
Qed.

(** *** The request *)
Lemma ending_same : forall e (s : state), rf_first (ending e s) = rf_first s /\ rf_holds (ending e s) = rf_holds s /\ rf_subscribed (ending e s) = rf_subscribed s /\ rf_complete (ending e s) = rf_complete s /\
  rf_goroutines (ending e s) = rf_goroutines s /\ rf_callbacks (ending e s) = rf_callbacks s /\ List.length (rf_subs (ending e s)) = List.length (rf_subs s) /\ wire (rf_trace (ending e s)) = wire (rf_trace s) /\
  (forall i x, nth_error (rf_subs s) i = Some x -> exists y, nth_error (rf_subs (ending e s)) i = Some y /\ fs_owner y = fs_owner x /\ fs_wired y = fs_wired x /\ fs_asks y = fs_asks x).
Proof.
  intros e s. unfold ending. destruct (current s) as [x|] eqn:X; [|repeat split; auto; intros i x H; exists x; auto]. destruct (fs_end x) eqn:En; [repeat split; auto; intros i y H; exists y; auto|].
  unfold current in X. assert (L : (pred (List.length (rf_subs s)) < List.length (rf_subs s))%nat) by (apply nth_error_Some; congruence).
  repeat split; auto; cbn [log set_sub rf_subs rf_trace].
  - now apply splice_len.
  - rewrite wire_app. match goal with |- _ ++ ?w = _ => replace w with (@nil (Z + Z)) end; [apply app_nil_r|]. symmetry. unfold wire. rewrite flat_map_app.
    destruct (fs_owner x); cbn; induction (rf_callbacks s); cbn; auto.
  - intros j y Hy. destruct (Nat.eq_dec j (pred (List.length (rf_subs s)))) as [->|Ne].
    + rewrite X in Hy. injection Hy as <-. eexists. split; [now apply splice_nth|]. auto.
    + exists y. rewrite splice_other by auto. auto.
Qed.
Lemma value_same : forall v (s : state), rf_first (value v s) = rf_first s /\ rf_holds (value v s) = rf_holds s /\ rf_subscribed (value v s) = rf_subscribed s /\ rf_complete (value v s) = rf_complete s /\
  rf_callbacks (value v s) = rf_callbacks s /\ List.length (rf_subs (value v s)) = List.length (rf_subs s) /\ wire (rf_trace (value v s)) = wire (rf_trace s) /\
  (exists l, rf_trace (value v s) = rf_trace s ++ l /\ (l = [] \/ exists k, l = [Gave k v])) /\
  (exists l, rf_goroutines (value v s) = rf_goroutines s ++ l /\ (l = [] \/ exists x n, current s = Some x /\ fs_wired x = true /\ fs_asks x = Some n /\ l = [GRequest n])) /\
  (forall i x, nth_error (rf_subs s) i = Some x -> exists y, nth_error (rf_subs (value v s)) i = Some y /\ fs_owner y = fs_owner x /\ fs_end y = fs_end x /\ fs_wired y = fs_wired x /\ fs_asks y = fs_asks x).
Proof.
  intros v s. assert (Z : forall t : list ev, exists l, t = t ++ l /\ (l = [] \/ exists k, l = [Gave k v])) by (intros t; exists []; rewrite app_nil_r; auto).
  assert (Z' : exists l, rf_goroutines s = rf_goroutines s ++ l /\ (l = [] \/ exists x n, current s = Some x /\ fs_wired x = true /\ fs_asks x = Some n /\ l = [GRequest n])) by (exists []; rewrite app_nil_r; auto).
  unfold value. destruct (current s) as [x|] eqn:X; [|repeat split; auto; intros i x H; exists x; auto]. destruct (fs_end x) eqn:En; [repeat split; auto; intros i y H; exists y; auto|].
  pose proof X as Xc. unfold current in X. assert (L : (pred (List.length (rf_subs s)) < List.length (rf_subs s))%nat) by (apply nth_error_Some; congruence).
  set (x' := {| fs_owner := fs_owner x; fs_end := None; fs_wired := fs_wired x; fs_n := fs_n x - 1; fs_asks := fs_asks x |}). set (evs := match fs_owner x with Nobody => [] | _ => _ end).
  set (s' := log evs (set_sub (pred (List.length (rf_subs s))) x' s)).
  assert (W : wire (rf_trace s') = wire (rf_trace s)). { cbn. rewrite wire_app. subst evs. destruct (fs_owner x); cbn; apply app_nil_r. }
  assert (T : exists l, rf_trace s' = rf_trace s ++ l /\ (l = [] \/ exists k, l = [Gave k v])). { exists evs. split; [reflexivity|]. subst evs. destruct (fs_owner x); eauto. }
  assert (Ln : List.length (rf_subs s') = List.length (rf_subs s)) by (cbn; now apply splice_len).
  assert (Nx : nth_error (rf_subs s') (pred (List.length (rf_subs s))) = Some x') by (cbn; now apply splice_nth).
  assert (Sb : forall i y, nth_error (rf_subs s) i = Some y -> exists z, nth_error (rf_subs s') i = Some z /\ fs_owner z = fs_owner y /\ fs_end z = fs_end y /\ fs_wired z = fs_wired y /\ fs_asks z = fs_asks y).
  { intros j y Hy. destruct (Nat.eq_dec j (pred (List.length (rf_subs s)))) as [->|Ne].
    - rewrite X in Hy. injection Hy as <-. exists x'. rewrite Nx. auto.
    - exists y. cbn. rewrite splice_other by auto. auto. }
  destruct (_ =? 0)%Z; [|repeat split; auto].
  destruct (again_same (pred (List.length (rf_subs s))) s') as [S1 S2 S3 S4 S5 S6 S7 S8]. rewrite S1, S2, S3, S4, S5, S6, S7. repeat split; auto.
  - exists (match fs_asks x with Some n => if fs_wired x then [GRequest n] else [] | None => [] end). rewrite again_goroutines, Nx. split; [reflexivity|].
    destruct (fs_asks x) as [n|] eqn:A; [|now left]. destruct (fs_wired x) eqn:Wd; [|now left]. right. exists x, n. auto.
  - intros i y Hy. destruct (Sb i y Hy) as (z & Z1 & Z2 & Z3 & Z4 & Z5). destruct (S8 _ _ Z1) as (u & U1 & U2 & U3 & U4 & U5). exists u. repeat split; congruence.
Qed.
Lemma outer_after : forall w a (s : state), let s' := outer_subscribe w a s in
  rf_trace s' = rf_trace s /\ rf_first s' = rf_first s /\ rf_complete s' = rf_complete s /\ rf_subscribed s' = true /\ rf_holds s' = false /\ rf_callbacks s' = rf_callbacks s /\
  rf_goroutines s' = rf_goroutines s ++ match a with Some n => if rf_holds s then [GRequest n] else [] | None => [] end /\
  List.length (rf_subs s') = S (List.length (rf_subs s)) /\
  (exists y, nth_error (rf_subs s') (List.length (rf_subs s)) = Some y /\ fs_owner y = w /\ fs_end y = None /\ fs_wired y = rf_holds s /\ fs_asks y = a) /\
  (forall i x, nth_error (rf_subs s) i = Some x -> exists y, nth_error (rf_subs s') i = Some y /\ fs_owner y = fs_owner x /\ fs_end y = fs_end x /\ fs_wired y = fs_wired x /\ fs_asks y = fs_asks x).
Proof. intros w a s. unfold outer_subscribe. exact (inner_after w a _). Qed.
Lemma ended_same : forall e (s : state), rf_first (ended e s) = rf_first s /\ rf_holds (ended e s) = rf_holds s /\ rf_subscribed (ended e s) = rf_subscribed s /\
  rf_goroutines (ended e s) = rf_goroutines s /\ rf_callbacks (ended e s) = rf_callbacks s /\ List.length (rf_subs (ended e s)) = List.length (rf_subs s) /\ wire (rf_trace (ended e s)) = wire (rf_trace s) /\
  (forall i x, nth_error (rf_subs s) i = Some x -> exists y, nth_error (rf_subs (ended e s)) i = Some y /\ fs_owner y = fs_owner x /\ fs_wired y = fs_wired x /\ fs_asks y = fs_asks x).
Proof.
  intros e s. destruct (ending_same e s) as (A1 & A2 & A3 & A4 & A5 & A6 & A7 & A8 & A9). destruct (ending_same None (ending e s)) as (B1 & B2 & B3 & B4 & B5 & B6 & B7 & B8 & B9).
  unfold ended. cbn [rf_first rf_holds rf_subscribed rf_goroutines rf_callbacks rf_subs rf_trace]. repeat split; try congruence.
  intros i x H. destruct (A9 i x H) as (y & Y1 & Y2 & Y3 & Y4). destruct (B9 i y Y1) as (z & Z1 & Z2 & Z3 & Z4). exists z. repeat split; congruence.
Qed.
Lemma notify_same : forall c (s : state), rf_first (notify c s) = rf_first s /\ rf_holds (notify c s) = rf_holds s /\ rf_subscribed (notify c s) = rf_subscribed s /\ rf_complete (notify c s) = rf_complete s /\
  rf_goroutines (notify c s) = rf_goroutines s /\ rf_subs (notify c s) = rf_subs s /\ wire (rf_trace (notify c s)) = wire (rf_trace s).
Proof.
  intros c s. unfold notify. destruct (current s) as [x|]; [|repeat split; reflexivity]. destruct x as [w e b n a]. destruct e as [e|]; [|repeat split; reflexivity].
  repeat split; try reflexivity. cbn. rewrite wire_app. apply app_nil_r.
Qed.
(** The frames sent and the state of the remote flux, after any step. *)
Definition first_of (s : state) : Prop := if rf_first s then wire (rf_trace s) = [] else exists n ns, wire (rf_trace s) = inl n :: map inr ns.
Lemma request_first : forall n (s : state), first_of s -> first_of (request n s).
Proof.
  intros n s H. unfold request. destruct (rf_complete s); [exact H|]. unfold first_of in *. destruct (rf_first s) eqn:F; cbn [log rf_trace rf_first].
  - rewrite wire_app, H. exists n, []. reflexivity.
  - rewrite F. destruct H as (m & ns & H). rewrite wire_app, H. exists m, (ns ++ [n]). cbn. now rewrite map_app.
Qed.
Lemma first_same : forall s s' : state, rf_first s' = rf_first s -> wire (rf_trace s') = wire (rf_trace s) -> first_of s -> first_of s'.
Proof. intros s s' A B H. unfold first_of in *. rewrite A, B. exact H. Qed.
Lemma step_first : forall x (s s' : state), first_of s -> rf_step s x = Some s' -> first_of s'.
Proof.
  intros x s s' H Q. destruct x as [k a| |c|k|k|i n|j|v|e]; cbn [rf_step] in Q.
  - injection Q as <-. destruct (outer_after (Reader k) a s) as (A & B & _). eapply first_same; [exact B|now rewrite A|exact H].
  - injection Q as <-. destruct (rf_subscribed s); [exact H|]. destruct (outer_after Nobody (Some request_max) s) as (A & B & _). eapply first_same; [exact B|now rewrite A|exact H].
  - injection Q as <-. destruct (notify_same c s) as (A & _ & _ & _ & _ & _ & B). eapply first_same; eauto.
  - injection Q as <-. unfold block. destruct (current s) as [x|]; [destruct (fs_end x)|]; eapply first_same; try exact H; try reflexivity; cbn; rewrite wire_app; apply app_nil_r.
  - injection Q as <-. exact H.
  - destruct (i <? _)%nat; [|discriminate]. injection Q as <-. destruct (ask_same i n s). eapply first_same; [eassumption|congruence|exact H].
  - destruct (nth_error (rf_goroutines s) j) as [g|]; [|discriminate]. injection Q as <-. assert (H' : first_of (without j s)) by exact H. destruct g as [n|k|k]; cbn [run_goroutine].
    + now apply request_first.
    + destruct (inner_after (Blocked k) (Some request_max) (without j s)) as (A & B & _). eapply first_same; [exact B|now rewrite A|exact H'].
    + destruct (outer_after (Blocked k) (Some request_max) (without j s)) as (A & B & _). eapply first_same; [exact B|now rewrite A|exact H'].
  - destruct (rf_subscribed s); [|discriminate]. injection Q as <-. destruct (value_same v s) as (A & _ & _ & _ & _ & _ & B & _). eapply first_same; eauto.
  - destruct (rf_subscribed s); [|discriminate]. injection Q as <-. destruct (ended_same e s) as (A & _ & _ & _ & _ & _ & B & _). eapply first_same; eauto.
Qed.
(** ** C106 *)
(** However the flux is used, at most one request is sent, and before any demand. *)
Theorem C106_opened_once : forall xs s, rf_run xs rf_init = Some s -> wire (rf_trace s) = [] \/ exists n ns, wire (rf_trace s) = inl n :: map inr ns.
Proof.
  intros xs s H. assert (F : first_of s). { revert xs s H. apply (run_ind (fun _ s => first_of s)); [reflexivity|]. intros xs x s s' F Q. exact (step_first x s s' F Q). }
  unfold first_of in F. destruct (rf_first s); [now left|right; exact F].
Qed.

(** Only the first subscriber can request. *)
Definition tied (s : state) : Prop := (rf_holds s = true -> rf_subs s = []) /\ (rf_subscribed s = true -> rf_subs s <> []) /\ forall i x, nth_error (rf_subs s) i = Some x -> fs_wired x = true -> i = 0%nat.
Lemma more_tied : forall s s' : state, tied s -> rf_holds s' = rf_holds s -> rf_subscribed s' = rf_subscribed s -> List.length (rf_subs s') = List.length (rf_subs s) ->
  (forall i x, nth_error (rf_subs s) i = Some x -> exists y, nth_error (rf_subs s') i = Some y /\ fs_wired y = fs_wired x) -> tied s'.
Proof.
  intros s s' (T1 & T2 & T3) H1 H2 H3 H4. split; [|split].
  - rewrite H1. intros X. specialize (T1 X). rewrite T1 in H3. destruct (rf_subs s'); [reflexivity|discriminate].
  - rewrite H2. intros X Y. apply (T2 X). rewrite Y in H3. destruct (rf_subs s); [reflexivity|discriminate].
  - intros i x Hx W. destruct (nth_error (rf_subs s) i) as [y|] eqn:Y.
    + destruct (H4 i y Y) as (z & Z1 & Z2). rewrite Hx in Z1. injection Z1 as <-. apply (T3 i y Y). congruence.
    + apply nth_error_None in Y. assert (i < List.length (rf_subs s'))%nat by (apply nth_error_Some; congruence). lia.
Qed.
Lemma subscribed_tied : forall w a (s s' : state), tied s -> rf_holds s' = false -> List.length (rf_subs s') = S (List.length (rf_subs s)) ->
  (exists y, nth_error (rf_subs s') (List.length (rf_subs s)) = Some y /\ fs_owner y = w /\ fs_end y = None /\ fs_wired y = rf_holds s /\ fs_asks y = a) ->
  (forall i x, nth_error (rf_subs s) i = Some x -> exists y, nth_error (rf_subs s') i = Some y /\ fs_owner y = fs_owner x /\ fs_end y = fs_end x /\ fs_wired y = fs_wired x /\ fs_asks y = fs_asks x) -> tied s'.
Proof.
  intros w a s s' (T1 & T2 & T3) H1 H2 (y & Y1 & _ & _ & Y2 & _) H4. split; [|split].
  - rewrite H1. discriminate.
  - intros _ X. rewrite X in H2. discriminate.
  - intros i x Hx W. assert (i < List.length (rf_subs s'))%nat by (apply nth_error_Some; congruence). destruct (Nat.eq_dec i (List.length (rf_subs s))) as [->|Ne].
    + rewrite Hx in Y1. injection Y1 as <-. rewrite Y2 in W. rewrite (T1 W). reflexivity.
    + destruct (nth_error (rf_subs s) i) as [z|] eqn:Z; [|apply nth_error_None in Z; lia]. destruct (H4 i z Z) as (u & U1 & _ & _ & U2 & _). rewrite Hx in U1. injection U1 as <-. apply (T3 i z Z). congruence.
Qed.
Lemma step_tied : forall x (s s' : state), tied s -> rf_step s x = Some s' -> tied s'.
Proof.
  intros x s s' H Q. assert (Keep : forall s' : state, rf_holds s' = rf_holds s -> rf_subscribed s' = rf_subscribed s -> rf_subs s' = rf_subs s -> tied s').
  { intros t A B C. destruct H as (T1 & T2 & T3). unfold tied. rewrite A, B, C. auto. }
  destruct x as [k a| |c|k|k|i n|j|v|e]; cbn [rf_step] in Q.
  - injection Q as <-. destruct (outer_after (Reader k) a s) as (_ & _ & _ & _ & A & _ & _ & B & C & D). exact (subscribed_tied _ _ _ _ H A B C D).
  - injection Q as <-. destruct (rf_subscribed s); [exact H|]. destruct (outer_after Nobody (Some request_max) s) as (_ & _ & _ & _ & A & _ & _ & B & C & D). exact (subscribed_tied _ _ _ _ H A B C D).
  - injection Q as <-. destruct (notify_same c s) as (_ & A & B & _ & _ & C & _). now apply Keep.
  - injection Q as <-. unfold block. destruct (current s) as [x|]; [destruct (fs_end x)|]; apply Keep; reflexivity.
  - injection Q as <-. apply Keep; reflexivity.
  - destruct (i <? _)%nat; [|discriminate]. injection Q as <-. destruct (ask_same i n s). eapply more_tied; try eassumption. intros j x Hx. destruct (sm_sub0 j x Hx) as (y & Y1 & _ & _ & Y2 & _). eauto.
  - destruct (nth_error (rf_goroutines s) j) as [g|]; [|discriminate]. injection Q as <-. assert (H' : tied (without j s)) by exact H. destruct g as [n|k|k]; cbn [run_goroutine].
    + unfold request. destruct (rf_complete _); [exact H'|]. destruct (rf_first _); exact H'.
    + destruct (inner_after (Blocked k) (Some request_max) (without j s)) as (_ & _ & _ & _ & A & _ & _ & B & C & D). exact (subscribed_tied _ _ _ _ H' A B C D).
    + destruct (outer_after (Blocked k) (Some request_max) (without j s)) as (_ & _ & _ & _ & A & _ & _ & B & C & D). exact (subscribed_tied _ _ _ _ H' A B C D).
  - destruct (rf_subscribed s); [|discriminate]. injection Q as <-. destruct (value_same v s) as (_ & A & B & _ & _ & C & _ & _ & _ & D). eapply more_tied; try eassumption.
    intros i x Hx. destruct (D i x Hx) as (y & Y1 & _ & _ & Y2 & _). eauto.
  - destruct (rf_subscribed s); [|discriminate]. injection Q as <-. destruct (ended_same e s) as (_ & A & B & _ & _ & C & _ & D). eapply more_tied; try eassumption.
    intros i x Hx. destruct (D i x Hx) as (y & Y1 & _ & Y2 & _). eauto.
Qed.
Lemma run_tied : forall xs s, rf_run xs rf_init = Some s -> tied s.
Proof.
  apply (run_ind (fun _ s => tied s)); [|intros xs x s s' F Q; exact (step_tied x s s' F Q)].
  split; [|split]; cbn; [reflexivity|discriminate|]. intros [|i] x H; discriminate H.
Qed.
(** Whoever subscribes after the first sends nothing, whatever it asks for: only
    requests of the first subscriber reach the peer. *)
Lemma idle_step : forall x (s s' : state), tied s -> (2 <= List.length (rf_subs s))%nat -> (forall n, ~ In (GRequest n) (rf_goroutines s)) -> (forall n, x <> FAsk 0 n) -> rf_step s x = Some s' ->
  (2 <= List.length (rf_subs s'))%nat /\ (forall n, ~ In (GRequest n) (rf_goroutines s')) /\ wire (rf_trace s') = wire (rf_trace s).
Proof.
  intros x s s' (T1 & T2 & T3) L G Hx Q.
  assert (Hh : rf_holds s = false). { destruct (rf_holds s); [|reflexivity]. rewrite (T1 eq_refl) in L. cbn in L. lia. }
  assert (Q0 : forall w a (s' : state), rf_trace s' = rf_trace s -> rf_goroutines s' = rf_goroutines s ++ match a with Some n => if rf_holds s then [GRequest n] else [] | None => [] end ->
    List.length (rf_subs s') = S (List.length (rf_subs s)) -> w = w :> reader -> (2 <= List.length (rf_subs s'))%nat /\ (forall n, ~ In (GRequest n) (rf_goroutines s')) /\ wire (rf_trace s') = wire (rf_trace s)).
  { intros w a t A B C _. rewrite A, B, C, Hh. split; [lia|]. split; [|reflexivity]. destruct a; rewrite app_nil_r; exact G. }
  destruct x as [k a| |c|k|k|i n|j|v|e]; cbn [rf_step] in Q.
  - injection Q as <-. destruct (outer_after (Reader k) a s) as (A & _ & _ & _ & _ & _ & B & C & _). exact (Q0 (Reader k) a _ A B C eq_refl).
  - injection Q as <-. destruct (rf_subscribed s); [auto|]. destruct (outer_after Nobody (Some request_max) s) as (A & _ & _ & _ & _ & _ & B & C & _). exact (Q0 Nobody (Some request_max) _ A B C eq_refl).
  - injection Q as <-. destruct (notify_same c s) as (_ & _ & _ & _ & A & B & C). rewrite A, B, C. auto.
  - injection Q as <-. unfold block. destruct (current s) as [x|]; [destruct (fs_end x)|]; cbn [log starts_goroutine rf_subs rf_goroutines rf_trace]; rewrite ?wire_app, ?app_nil_r; (split; [exact L|]); (split; [|try reflexivity; apply app_nil_r]); auto.
    intros n H. apply in_app_iff in H. destruct H as [H|[H|[]]]; [exact (G n H)|discriminate].
  - injection Q as <-. cbn [starts_goroutine rf_subs rf_goroutines rf_trace]. split; [exact L|]. split; [|reflexivity]. intros n H. apply in_app_iff in H. destruct H as [H|[H|[]]]; [exact (G n H)|discriminate].
  - destruct (i <? _)%nat; [|discriminate]. injection Q as <-. destruct (ask_same i n s). rewrite sm_len0, sm_trace0, ask_goroutines. split; [exact L|]. split; [|reflexivity].
    destruct (nth_error (rf_subs s) i) as [x|] eqn:X; [|now rewrite app_nil_r]. destruct (fs_wired x) eqn:W; [|now rewrite app_nil_r]. rewrite (T3 i x X W) in Hx. destruct (Hx n eq_refl).
  - destruct (nth_error (rf_goroutines s) j) as [g|] eqn:Ng; [|discriminate]. injection Q as <-.
    assert (G' : forall n, ~ In (GRequest n) (rf_goroutines (without j s))). { intros n H. cbn in H. apply (G n). rewrite <- (firstn_skipn j (rf_goroutines s)). apply in_app_iff in H. apply in_app_iff. destruct H as [H|H]; [now left|right].
      clear -H. revert H. generalize (rf_goroutines s) as l. induction j as [|j IH]; intros [|y l] H; cbn in *; auto. }
    destruct g as [n|k|k]; cbn [run_goroutine].
    + destruct (G n). eapply nth_error_In; eauto.
    + destruct (inner_after (Blocked k) (Some request_max) (without j s)) as (A & _ & _ & _ & _ & _ & B & C & _). rewrite A, B, C. cbn [without rf_holds rf_subs rf_trace]. rewrite Hh, app_nil_r. split; [lia|]. auto.
    + destruct (outer_after (Blocked k) (Some request_max) (without j s)) as (A & _ & _ & _ & _ & _ & B & C & _). rewrite A, B, C. cbn [without rf_holds rf_subs rf_trace]. rewrite Hh, app_nil_r. split; [lia|]. auto.
  - destruct (rf_subscribed s); [|discriminate]. injection Q as <-. destruct (value_same v s) as (_ & _ & _ & _ & _ & A & B & _ & (l & C & D) & _). rewrite A, B, C. split; [exact L|]. split; [|reflexivity].
    destruct D as [->|(x & n & X & W & _)]; [now rewrite app_nil_r|]. unfold current in X. specialize (T3 _ _ X W). lia.
  - destruct (rf_subscribed s); [|discriminate]. injection Q as <-. destruct (ended_same e s) as (_ & _ & _ & A & _ & B & C & _). rewrite A, B, C. auto.
Qed.
Theorem C106_later_subscribers_send_nothing : forall xs s k a ys s', rf_run xs rf_init = Some s -> rf_subscribed s = true -> (forall n, ~ In (GRequest n) (rf_goroutines s)) ->
  rf_run (FSub k a :: ys) s = Some s' -> (forall n, ~ In (FAsk 0 n) ys) -> wire (rf_trace s') = wire (rf_trace s).
Proof.
  intros xs s k a ys s' H Sb G R Ny. pose proof (run_tied xs s H) as T. cbn [rf_run rf_step] in R. set (m := outer_subscribe (Reader k) a s) in *.
  destruct (outer_after (Reader k) a s) as (A & _ & _ & _ & B0 & _ & B & C & D & F). fold m in A, B, C, B0, D, F.
  assert (Tm : tied m) by exact (subscribed_tied _ _ _ _ T B0 C D F). destruct T as (T1 & T2 & _). specialize (T2 Sb).
  assert (Hh : rf_holds s = false). { destruct (rf_holds s); [|reflexivity]. now rewrite (T1 eq_refl) in T2. }
  assert (Lm : (2 <= List.length (rf_subs m))%nat). { rewrite C. destruct (rf_subs s); [now destruct T2|cbn; lia]. }
  assert (Gm : forall n, ~ In (GRequest n) (rf_goroutines m)). { rewrite B, Hh. destruct a; rewrite app_nil_r; exact G. }
  rewrite <- A. clear A B0 B C D F. generalize dependent m. revert Ny. induction ys as [|y ys IH]; intros Ny m R Tm Lm Gm; [injection R as <-; reflexivity|].
  cbn [rf_run] in R. destruct (rf_step m y) as [m'|] eqn:Q; [|discriminate]. assert (Hy : forall n, y <> FAsk 0 n) by (intros n ->; apply (Ny n); now left).
  destruct (idle_step y m m' Tm Lm Gm Hy Q) as (L' & G' & W'). rewrite <- W'. apply (IH (fun n X => Ny n (or_intror X)) m' R (step_tied y m m' Tm Q) L' G').
Qed.

(** Without anything from the peer no reader is given a value or an end, and only a
    [Block] that finds the last subscription ended returns: in particular
    [flux.Block] on a stream that was read before waits for more from the peer. *)
Definition no_news (ys : list op) (e : ev) : Prop :=
  match e with Gave _ _ | Ended _ _ => False | BlockReturned k _ => In (FBlock k) ys | _ => True end.
Lemma silent_step : forall x (s s' : state), arrives x = false -> rf_step s x = Some s' -> exists l, rf_trace s' = rf_trace s ++ l /\ Forall (no_news [x]) l.
Proof.
  intros x s s' Hx Q. assert (Z : forall t : list ev, exists l, t = t ++ l /\ Forall (no_news [x]) l) by (intros t; exists []; rewrite app_nil_r; auto).
  destruct x as [k a| |c|k|k|i n|j|v|e]; cbn [rf_step] in Q; try discriminate Hx.
  - injection Q as <-. destruct (outer_after (Reader k) a s) as (-> & _). apply Z.
  - injection Q as <-. destruct (rf_subscribed s); [apply Z|]. destruct (outer_after Nobody (Some request_max) s) as (-> & _). apply Z.
  - injection Q as <-. unfold notify. destruct (current s) as [x|]; [|apply Z]. destruct x as [w e b n a]. destruct e as [e|]; [|apply Z]. eexists. split; [reflexivity|]. constructor; [exact I|constructor].
  - injection Q as <-. unfold block. destruct (current s) as [x|]; [destruct (fs_end x)|]; [| apply Z |]; eexists; (split; [reflexivity|]); (constructor; [|constructor]); cbn; auto.
  - injection Q as <-. apply Z.
  - destruct (i <? _)%nat; [|discriminate]. injection Q as <-. destruct (ask_same i n s). rewrite sm_trace0. apply Z.
  - destruct (nth_error (rf_goroutines s) j) as [g|]; [|discriminate]. injection Q as <-. destruct g as [n|k|k]; cbn [run_goroutine].
    + unfold request. destruct (rf_complete _); [apply Z|]. destruct (rf_first _); (eexists; (split; [reflexivity|]); constructor; [exact I|constructor]).
    + destruct (inner_after (Blocked k) (Some request_max) (without j s)) as (-> & _). apply Z.
    + destruct (outer_after (Blocked k) (Some request_max) (without j s)) as (-> & _). apply Z.
Qed.
Theorem C106_nothing_without_the_peer : forall xs s ys s', rf_run xs rf_init = Some s -> rf_run ys s = Some s' -> Forall (fun x => arrives x = false) ys ->
  exists new, rf_trace s' = rf_trace s ++ new /\ Forall (no_news ys) new.
Proof.
  intros xs s ys s' _ R F. revert s R. induction F as [|y ys Hy F IH]; intros s R; [injection R as <-; exists []; rewrite app_nil_r; auto|].
  cbn [rf_run] in R. destruct (rf_step s y) as [m|] eqn:Q; [|discriminate]. destruct (IH m R) as (l' & E' & Fl').
  destruct (silent_step y s m Hy Q) as (l0 & E0 & Fl0). exists (l0 ++ l'). rewrite E', E0, app_assoc. split; [reflexivity|]. apply Forall_app. split.
  - eapply Forall_impl; [|exact Fl0]. intros [] N; cbn in *; auto. destruct N as [->|[]]. now left.
  - eapply Forall_impl; [|exact Fl']. intros [] N; cbn in *; auto.
Qed.
(** So reading a remote stream a second time never ends, although the stream has. *)
Theorem C106_read_again_refuted : forall (e : option E) k ys s', Forall (fun x => arrives x = false) ys -> (forall k', ~ In (FBlock k') ys) -> (forall n, ~ In (FAsk 0 n) ys) ->
  rf_run ([FAsync; FRun 0; FEnd e; FBlockOn k] ++ ys) rf_init = Some s' ->
  wire (rf_trace s') = [inl request_max] /\ forall k' r, ~ In (BlockReturned k' r) (rf_trace s').
Proof.
  intros e k ys s' F Nb Na R. rewrite run_app in R. match type of R with (match ?t with _ => _ end = _) => destruct t as [s|] eqn:E0; [|discriminate R] end.
  assert (W : wire (rf_trace s) = [inl request_max] /\ (1 <= List.length (rf_subs s))%nat /\ rf_holds s = false /\ rf_goroutines s = [GOuter k] /\ rf_trace s = [Opened request_max]).
  { destruct e; cbn in E0; injection E0 as <-; repeat split; cbn; lia. }
  destruct W as (W & W1 & W2 & W3 & W4). split.
  - rewrite <- W.
    assert (K : forall ys (m m' : state), tied m -> (1 <= List.length (rf_subs m))%nat -> rf_holds m = false -> (forall n, ~ In (GRequest n) (rf_goroutines m)) -> Forall (fun x => arrives x = false) ys -> (forall n, ~ In (FAsk 0 n) ys) ->
      rf_run ys m = Some m' -> wire (rf_trace m') = wire (rf_trace m)).
    2:{ apply (K ys s s'); auto; [exact (run_tied _ _ E0)|]. rewrite W3. intros n [H|[]]. discriminate. }
    clear. induction ys as [|y ys IH]; intros m m' T L Hh G F Na R; [injection R as <-; reflexivity|]. cbn [rf_run] in R. destruct (rf_step m y) as [m1|] eqn:Q; [|discriminate]. inversion F as [|? ? Fy Fys]; subst.
    assert (Tm : tied m1) by exact (step_tied _ _ _ T Q).
    assert (St : (1 <= List.length (rf_subs m1))%nat /\ rf_holds m1 = false /\ (forall n, ~ In (GRequest n) (rf_goroutines m1)) /\ wire (rf_trace m1) = wire (rf_trace m)).
    { assert (Q0 : forall a (t : state), rf_trace t = rf_trace m -> rf_holds t = false -> rf_goroutines t = rf_goroutines m ++ match a with Some n => if rf_holds m then [GRequest n] else [] | None => [] end ->
        List.length (rf_subs t) = S (List.length (rf_subs m)) -> (1 <= List.length (rf_subs t))%nat /\ rf_holds t = false /\ (forall n, ~ In (GRequest n) (rf_goroutines t)) /\ wire (rf_trace t) = wire (rf_trace m)).
      { intros a t A B C D. rewrite A, B, C, D, Hh. split; [lia|]. split; [reflexivity|]. split; [|reflexivity]. destruct a; rewrite app_nil_r; exact G. }
      assert (Hy : forall n, y <> FAsk 0 n) by (intros n ->; apply (Na n); now left).
      destruct y as [k' a| |c|k'|k'|i n|j|v|e']; cbn [rf_step] in Q; try discriminate Fy.
      - injection Q as <-. destruct (outer_after (Reader k') a m) as (A & _ & _ & _ & B & _ & C & D & _). exact (Q0 a _ A B C D).
      - injection Q as <-. destruct (rf_subscribed m); [auto|]. destruct (outer_after Nobody (Some request_max) m) as (A & _ & _ & _ & B & _ & C & D & _). exact (Q0 (Some request_max) _ A B C D).
      - injection Q as <-. destruct (notify_same c m) as (_ & A0 & _ & _ & A & B & C). rewrite A, B, C, A0. auto.
      - injection Q as <-. unfold block. destruct (current m) as [x|]; [destruct (fs_end x)|]; cbn [log starts_goroutine rf_subs rf_holds rf_goroutines rf_trace]; rewrite ?wire_app, ?app_nil_r; (split; [exact L|]); (split; [exact Hh|]); (split; [|try reflexivity; apply app_nil_r]); auto.
        intros n H. apply in_app_iff in H. destruct H as [H|[H|[]]]; [exact (G n H)|discriminate].
      - injection Q as <-. cbn [starts_goroutine rf_subs rf_holds rf_goroutines rf_trace]. split; [exact L|]. split; [exact Hh|]. split; [|reflexivity]. intros n H. apply in_app_iff in H. destruct H as [H|[H|[]]]; [exact (G n H)|discriminate].
      - destruct (i <? _)%nat; [|discriminate]. injection Q as <-. destruct (ask_same i n m). rewrite sm_len0, sm_trace0, sm_holds0, ask_goroutines. split; [exact L|]. split; [exact Hh|]. split; [|reflexivity].
        destruct (nth_error (rf_subs m) i) as [x|] eqn:X; [|now rewrite app_nil_r]. destruct (fs_wired x) eqn:Wd; [|now rewrite app_nil_r]. destruct T as (_ & _ & T3). rewrite (T3 i x X Wd) in Hy. destruct (Hy n eq_refl).
      - destruct (nth_error (rf_goroutines m) j) as [g|] eqn:Ng; [|discriminate]. injection Q as <-.
        assert (G' : forall n, ~ In (GRequest n) (rf_goroutines (without j m))). { intros n H. cbn in H. apply (G n). rewrite <- (firstn_skipn j (rf_goroutines m)). apply in_app_iff in H. apply in_app_iff. destruct H as [H|H]; [now left|right].
          clear -H. revert H. generalize (rf_goroutines m) as l. induction j as [|j IH]; intros [|y l] H; cbn in *; auto. }
        destruct g as [n|k'|k']; cbn [run_goroutine].
        + destruct (G n). eapply nth_error_In; eauto.
        + destruct (inner_after (Blocked k') (Some request_max) (without j m)) as (A & _ & _ & _ & A0 & _ & B & C & _). rewrite A, A0, B, C. cbn [without rf_holds rf_subs rf_trace]. rewrite Hh, app_nil_r. split; [lia|]. auto.
        + destruct (outer_after (Blocked k') (Some request_max) (without j m)) as (A & _ & _ & _ & A0 & _ & B & C & _). rewrite A, A0, B, C. cbn [without rf_holds rf_subs rf_trace]. rewrite Hh, app_nil_r. split; [lia|]. auto. }
    destruct St as (L1 & H1 & G1 & W1). rewrite <- W1. exact (IH m1 m' Tm L1 H1 G1 Fys (fun n X => Na n (or_intror X)) R).
  - intros k' r Hin. destruct (C106_nothing_without_the_peer _ s ys s' E0 R F) as (new & En & Fn). rewrite En in Hin. apply in_app_iff in Hin. destruct Hin as [Hin|Hin].
    + rewrite W4 in Hin. destruct Hin as [Hin|[]]. discriminate.
    + rewrite Forall_forall in Fn. exact (Nb k' (Fn _ Hin)).
Qed.

(** A flow that awaits the stream. *)
Fixpoint first_end (xs : list op) : option (option E) := match xs with [] => None | FEnd e :: _ => Some e | _ :: xs' => first_end xs' end.
Lemma first_end_snoc : forall xs x, first_end (xs ++ [x]) = match first_end xs with Some e => Some e | None => match x with FEnd e => Some e | _ => None end end.
Proof. induction xs as [|y xs IH]; intros x; [destruct x; reflexivity|]. destruct y; cbn; try apply IH; reflexivity. Qed.
Definition count {A} (f : A -> bool) (l : list A) : nat := List.length (filter f l).
Lemma count_app : forall A (f : A -> bool) a b, count f (a ++ b) = (count f a + count f b)%nat.
Proof. intros. unfold count. now rewrite filter_app, app_length. Qed.
Lemma signals_app : forall a b, signals (a ++ b) = signals a ++ signals b.
Proof. intros. apply flat_map_app. Qed.
Definition clean (e : option E) : bool := match e with None => true | Some _ => false end.
Lemma ended_open : forall x e (s : state), rf_subs s = [x] -> fs_end x = None -> ended e s =
  {| rf_subscribed := rf_subscribed s; rf_first := rf_first s; rf_complete := true; rf_holds := rf_holds s;
     rf_subs := [{| fs_owner := fs_owner x; fs_end := Some e; fs_wired := fs_wired x; fs_n := fs_n x; fs_asks := fs_asks x |}]; rf_callbacks := rf_callbacks s; rf_goroutines := rf_goroutines s;
     rf_trace := rf_trace s ++ match fs_owner x with Nobody => [] | Reader k => [Ended k e] | Blocked k => [BlockReturned k e] end ++ map (fun c => FNotified c (clean e)) (rf_callbacks s) |}.
Proof. intros x e [sb f cp h subs cb g t] Hs He. cbn in Hs. subst subs. destruct x as [w r b n a]. cbn in He. subst r. reflexivity. Qed.
Lemma ended_closed : forall x r e (s : state), rf_subs s = [x] -> fs_end x = Some r -> ended e s =
  {| rf_subscribed := rf_subscribed s; rf_first := rf_first s; rf_complete := true; rf_holds := rf_holds s; rf_subs := rf_subs s; rf_callbacks := rf_callbacks s; rf_goroutines := rf_goroutines s; rf_trace := rf_trace s |}.
Proof. intros x r e [sb f cp h subs cb g t] Hs He. cbn in Hs. subst subs. destruct x as [w q b n a]. cbn in He. subst q. reflexivity. Qed.
Definition maxed (w : Z + Z) : Prop := w = inl request_max \/ w = inr request_max.
Definition await_inv (xs : list op) (s : state) : Prop :=
  Forall maxed (wire (rf_trace s)) /\ Forall (eq (GRequest request_max)) (rf_goroutines s) /\
  (first_end xs = None -> rf_complete s = false /\ signals (rf_trace s) = [] /\ (forall c, count (notified c) (rf_trace s) = 0%nat) /\ forall c, count (Nat.eqb c) (rf_callbacks s) = count (notifies c) xs) /\
  if rf_subscribed s then
    In FAsync xs /\ (exists x, rf_subs s = [x] /\ fs_owner x = Nobody /\ fs_asks x = Some request_max /\ fs_end x = first_end xs) /\
    (rf_first s = true -> first_end xs = None -> rf_goroutines s <> []) /\
    (forall e, first_end xs = Some e -> (forall c, count (notified c) (rf_trace s) = count (notifies c) xs) /\ Forall (eq (clean e)) (signals (rf_trace s)))
  else rf_subs s = [] /\ ~ In FAsync xs /\ first_end xs = None /\ rf_goroutines s = [] /\ rf_holds s = true.
Lemma count_notified : forall c b l, count (notified c) (map (fun d => FNotified d b) l) = count (Nat.eqb c) l.
Proof. intros c b l. unfold count. induction l as [|d l IH]; [reflexivity|]. cbn. destruct (c =? d)%nat; cbn; congruence. Qed.
Lemma signals_notified : forall b l, Forall (eq b) (signals (map (fun d => FNotified d b) l)).
Proof. intros b l. induction l as [|d l IH]; [constructor|]. cbn. constructor; [reflexivity|exact IH]. Qed.
Lemma wire_notified : forall b l, wire (map (fun d => FNotified d b) l) = [].
Proof. intros b l. induction l as [|d l IH]; [reflexivity|exact IH]. Qed.
Lemma count_snoc : forall c xs x, count (notifies c) (xs ++ [x]) = (count (notifies c) xs + if notifies c x then 1 else 0)%nat.
Proof. intros. rewrite count_app. unfold count at 2. cbn. destruct (notifies c x); reflexivity. Qed.
Lemma forall_snoc_inv : forall A (P : A -> Prop) xs x, Forall P (xs ++ [x]) -> Forall P xs /\ P x.
Proof. intros A P xs x H. apply Forall_app in H. destruct H as [H1 H2]. inversion H2. auto. Qed.
Lemma remove_max : forall j (l : list goroutine), Forall (eq (GRequest request_max)) l -> Forall (eq (GRequest request_max)) (firstn j l ++ skipn (S j) l).
Proof.
  intros j l H. apply Forall_app. rewrite Forall_forall in H. split; apply Forall_forall; intros x Hx; apply H.
  - rewrite <- (firstn_skipn j l). apply in_app_iff. now left.
  - rewrite <- (firstn_skipn (S j) l). apply in_app_iff. now right.
Qed.
Lemma await_step : forall xs x s s', await_inv xs s -> awaits x -> rf_step s x = Some s' -> await_inv (xs ++ [x]) s'.
Proof.
  intros xs x s s' (I1 & I2 & I3 & I4) Ha Q. destruct x as [k a| |c|k|k|i n|j|v|e]; try destruct Ha; cbn [rf_step] in Q; unfold await_inv; rewrite first_end_snoc.
  - injection Q as <-. assert (C : forall c, count (notifies c) (xs ++ [FAsync]) = count (notifies c) xs) by (intros; rewrite count_snoc; cbn; lia).
    destruct (rf_subscribed s) eqn:Sb.
    + destruct I4 as (A & B & D & F). rewrite ?Sb. replace (match first_end xs with Some e => Some e | None => None end) with (first_end xs) by now destruct (first_end xs).
      split; [exact I1|]. split; [exact I2|]. split; [intros N; destruct (I3 N) as (X1 & X2 & X3 & X4); repeat split; auto; intros; now rewrite C|]. split; [apply in_app_iff; now left|]. split; [exact B|]. split; [exact D|].
      intros e He. destruct (F e He) as [F1 F2]. split; [intros c; rewrite C; apply F1|exact F2].
    + destruct I4 as (A & B & D & F & H). destruct (outer_after Nobody (Some request_max) s) as (O1 & O2 & O3 & O4 & O5 & O6 & O7 & O8 & (y & Y1 & Y2 & Y3 & Y4 & Y5) & _).
      rewrite O1, O4, O7, O6, O3, D, F, H. cbn [app]. destruct (I3 D) as (X1 & X2 & X3 & X4).
      split; [exact I1|]. split; [repeat constructor|]. split; [intros _; repeat split; auto; intros; now rewrite C|]. split; [apply in_app_iff; right; now left|]. split.
      * rewrite A in Y1, O8. cbn in Y1, O8. destruct (rf_subs (outer_subscribe Nobody (Some request_max) s)) as [|z [|]]; try discriminate. cbn in Y1. injection Y1 as ->. exists y. auto.
      * split; [discriminate|]. intros e He. discriminate.
  - injection Q as <-. assert (C : forall d, count (notifies d) (xs ++ [FNotify c]) = (count (notifies d) xs + if (d =? c)%nat then 1 else 0)%nat) by (intros; rewrite count_snoc; reflexivity).
    replace (match first_end xs with Some e => Some e | None => None end) with (first_end xs) by now destruct (first_end xs).
    unfold notify. destruct (rf_subscribed s) eqn:Sb.
    + destruct I4 as (A & (y & Y1 & Y2 & Y3 & Y4) & D & F). unfold current. rewrite Y1. cbn [List.length pred nth_error]. destruct y as [w r b n a]. cbn [fs_end fs_owner fs_asks] in *. subst r. destruct (first_end xs) as [e|] eqn:Fe.
      * cbn [log rf_subscribed rf_trace rf_goroutines rf_subs rf_first]. rewrite ?Sb, wire_app, signals_app. split; [rewrite app_nil_r; exact I1|]. split; [exact I2|]. split; [discriminate|].
        split; [apply in_app_iff; now left|]. split; [eexists; split; [first [exact Y1 | reflexivity]|]; auto|]. split; [discriminate|]. intros e' E'. injection E' as <-. destruct (F e eq_refl) as [F1 F2]. split.
        -- intros d. rewrite count_app, C, F1. f_equal. unfold count. cbn. now destruct (d =? c)%nat.
        -- apply Forall_app. split; [exact F2|]. repeat constructor. 
      * cbn [rf_subscribed rf_trace rf_goroutines rf_subs rf_first rf_callbacks rf_complete]. rewrite ?Sb. split; [exact I1|]. split; [exact I2|]. destruct (I3 eq_refl) as (X1 & X2 & X3 & X4).
        split; [intros _; repeat split; auto; intros d; rewrite count_app, C, X4; f_equal; unfold count; cbn; now destruct (d =? c)%nat|].
        split; [apply in_app_iff; now left|]. split; [eexists; split; [first [exact Y1 | reflexivity]|]; auto|]. split; [exact D|]. discriminate.
    + destruct I4 as (A & B & D & F & H). unfold current. rewrite A. cbn [List.length pred nth_error rf_subscribed rf_trace rf_goroutines rf_subs rf_first rf_callbacks rf_complete rf_holds]. rewrite ?Sb, D. destruct (I3 D) as (X1 & X2 & X3 & X4).
      split; [exact I1|]. split; [exact I2|]. split; [intros _; repeat split; auto; intros d; rewrite count_app, C, X4; f_equal; unfold count; cbn; now destruct (d =? c)%nat|].
      repeat split; auto. intros N. apply in_app_iff in N. destruct N as [N|[N|[]]]; [exact (B N)|discriminate].
  - destruct (nth_error (rf_goroutines s) j) as [g|] eqn:Ng; [|discriminate]. injection Q as <-. assert (C : forall c, count (notifies c) (xs ++ [FRun j]) = count (notifies c) xs) by (intros; rewrite count_snoc; cbn; lia).
    replace (match first_end xs with Some e => Some e | None => None end) with (first_end xs) by now destruct (first_end xs).
    assert (g = GRequest request_max) by (rewrite Forall_forall in I2; symmetry; apply I2; eapply nth_error_In; eauto). subst g. cbn [run_goroutine]. pose proof (remove_max j _ I2) as I2'.
    destruct (rf_subscribed s) eqn:Sb; [|destruct I4 as (_ & _ & _ & F & _); rewrite F in Ng; destruct j; discriminate].
    destruct I4 as (A & B & D & F).
    unfold request. cbn [without rf_complete rf_first]. destruct (rf_complete s) eqn:Cp; [|destruct (rf_first s) eqn:Fs]; cbn [log rf_subscribed rf_trace rf_goroutines rf_subs rf_first rf_callbacks rf_complete without]; rewrite ?Sb.
    + split; [exact I1|]. split; [exact I2'|]. split; [intros N; destruct (I3 N); congruence|]. split; [apply in_app_iff; now left|]. split; [exact B|]. split; [intros _ N; destruct (I3 N); congruence|].
      intros e He. destruct (F e He) as [F1 F2]. split; [intros c; rewrite C; apply F1|exact F2].
    + rewrite wire_app, signals_app. split; [apply Forall_app; split; [exact I1|]; repeat constructor|]. split; [exact I2'|].
      split; [intros N; destruct (I3 N) as (X1 & X2 & X3 & X4); rewrite X2; repeat split; auto; intros c; [rewrite count_app, X3; reflexivity|now rewrite C]|]. split; [apply in_app_iff; now left|]. split; [exact B|]. split; [discriminate|].
      intros e He. destruct (F e He) as [F1 F2]. split; [intros c; rewrite C, count_app, F1; unfold count; cbn; lia|]. rewrite app_nil_r. exact F2.
    + rewrite wire_app, signals_app. split; [apply Forall_app; split; [exact I1|]; constructor; [now right|constructor]|]. split; [exact I2'|].
      split; [intros N; destruct (I3 N) as (X1 & X2 & X3 & X4); rewrite X2; repeat split; auto; intros c; [rewrite count_app, X3; reflexivity|now rewrite C]|]. split; [apply in_app_iff; now left|]. split; [exact B|]. split; [congruence|].
      intros e He. destruct (F e He) as [F1 F2]. split; [intros c; rewrite C, count_app, F1; unfold count; cbn; lia|]. rewrite app_nil_r. exact F2.
  - destruct (rf_subscribed s) eqn:Sb; [|discriminate]. injection Q as <-. assert (C : forall c, count (notifies c) (xs ++ [FValue v]) = count (notifies c) xs) by (intros; rewrite count_snoc; cbn; lia).
    replace (match first_end xs with Some e => Some e | None => None end) with (first_end xs) by now destruct (first_end xs).
    destruct I4 as (A & (y & Y1 & Y2 & Y3 & Y4) & D & F). destruct (value_same v s) as (V1 & V2 & V3 & V4 & V5 & V6 & V7 & (l & L1 & L2) & (g & G1 & G2) & V8).
    assert (Sl : signals l = [] /\ forall c, count (notified c) l = 0%nat) by (destruct L2 as [->|(k & ->)]; split; reflexivity). destruct Sl as [Sl Cl].
    rewrite V3, Sb, V7, G1, V1, V4, V5, L1, signals_app, Sl, app_nil_r. split; [exact I1|]. split.
    { apply Forall_app. split; [exact I2|]. destruct G2 as [->|(z & n & Z1 & _ & Z2 & ->)]; [constructor|]. unfold current in Z1. rewrite Y1 in Z1. cbn in Z1. injection Z1 as <-. rewrite Y3 in Z2. injection Z2 as <-. repeat constructor. }
    split; [intros N; destruct (I3 N) as (X1 & X2 & X3 & X4); repeat split; auto; intros c; [rewrite count_app, X3, Cl; reflexivity|now rewrite C]|].
    split; [apply in_app_iff; now left|]. split.
    { destruct (V8 0%nat y) as (z & Z1 & Z2 & Z3 & _ & Z4); [now rewrite Y1|]. rewrite Y1 in V6. destruct (rf_subs (value v s)) as [|u [|]]; try discriminate. cbn in Z1. injection Z1 as ->. exists z. repeat split; congruence. }
    split; [intros X N W; apply app_eq_nil in W; destruct W as [W _]; exact (D X N W)|].
    intros e He. destruct (F e He) as [F1 F2]. split; [intros c; rewrite C, count_app, Cl, F1; lia|exact F2].
  - destruct (rf_subscribed s) eqn:Sb; [|discriminate]. injection Q as <-. assert (C : forall c, count (notifies c) (xs ++ [FEnd e]) = count (notifies c) xs) by (intros; rewrite count_snoc; cbn; lia).
    destruct I4 as (A & (y & Y1 & Y2 & Y3 & Y4) & D & F). destruct (first_end xs) as [r|] eqn:Fe.
    + rewrite (ended_closed y r e s Y1 Y4). cbn [rf_subscribed rf_trace rf_goroutines rf_subs rf_first]. rewrite ?Sb. split; [exact I1|]. split; [exact I2|]. split; [discriminate|]. split; [apply in_app_iff; now left|].
      split; [exists y; auto|]. split; [discriminate|]. intros e' E'. injection E' as <-. destruct (F r eq_refl) as [F1 F2]. split; [intros c; rewrite C; apply F1|exact F2].
    + rewrite (ended_open y e s Y1 Y4). cbn [rf_subscribed rf_trace rf_goroutines rf_subs rf_first]. rewrite ?Sb, Y2. cbn [app]. rewrite wire_app, wire_notified, app_nil_r. split; [exact I1|]. split; [exact I2|]. split; [discriminate|]. split; [apply in_app_iff; now left|].
      split; [eexists; split; [reflexivity|]; auto|]. split; [discriminate|]. intros e' E'. injection E' as <-. destruct (I3 eq_refl) as (X1 & X2 & X3 & X4). split.
      * intros c. rewrite C, count_app, X3, count_notified, X4. reflexivity.
      * rewrite signals_app, X2. apply signals_notified.
Qed.
(** Awaited, however often and by however many, a stream is requested once, with
    all the demand there is; nothing is notified before its end arrives; after that
    every notification asked for, before or after, has been given exactly once,
    with the kind of the first end that arrived. *)
Theorem C106_awaited : forall xs s, rf_run xs rf_init = Some s -> Forall awaits xs -> In FAsync xs ->
  ((forall e, ~ In (FEnd e) xs) -> signals (rf_trace s) = [] /\ (rf_goroutines s = [] -> exists ns, wire (rf_trace s) = inl request_max :: map inr ns)) /\
  (forall pre e post, xs = pre ++ FEnd e :: post -> (forall e', ~ In (FEnd e') pre) ->
    (forall c, List.length (filter (notified c) (rf_trace s)) = List.length (filter (notifies c) xs)) /\ Forall (fun b => b = match e with None => true | Some _ => false end) (signals (rf_trace s))).
Proof.
  intros xs s H Fa Hin.
  assert (I : await_inv xs s).
  { clear Hin. revert Fa. revert xs s H. apply (run_ind (fun xs s => Forall awaits xs -> await_inv xs s)).
    - intros _. unfold await_inv. cbn. repeat split; auto.
    - intros xs x s s' IH Q F. apply forall_snoc_inv in F. destruct F as [F1 F2]. exact (await_step xs x s s' (IH F1) F2 Q). }
  destruct I as (I1 & I2 & I3 & I4). destruct (rf_subscribed s) eqn:Sb; [|destruct I4 as (_ & N & _); contradiction]. destruct I4 as (_ & _ & D & F). split.
  - intros Ne. assert (Fe : first_end xs = None). { clear -Ne. induction xs as [|x xs IH]; [reflexivity|]. destruct x; try (apply IH; intros e' X; exact (Ne e' (or_intror X))). destruct (Ne e). now left. }
    destruct (I3 Fe) as (_ & X & _). split; [exact X|]. intros G.
    assert (Fo : first_of s). { clear -H. revert xs s H. apply (run_ind (fun _ s => first_of s)); [reflexivity|]. intros xs x s s' F Q. exact (step_first x s s' F Q). }
    unfold first_of in Fo. destruct (rf_first s); [destruct (D eq_refl Fe G)|]. destruct Fo as (n & ns & W). rewrite W in I1. inversion I1 as [|? ? M _]; subst. destruct M as [M|M]; [|discriminate]. injection M as ->. exists ns. exact W.
  - intros pre e post -> Np. assert (Fe : first_end (pre ++ FEnd e :: post) = Some e). { clear -Np. induction pre as [|x pre IH]; [reflexivity|]. destruct x; try (apply IH; intros e' X; exact (Np e' (or_intror X))). destruct (Np e0). now left. }
    destruct (F e Fe) as [F1 F2]. split; [exact F1|]. eapply Forall_impl; [|exact F2]. intros b Hb. symmetry. exact Hb.
Qed.

(** Blocking.  The method [Block] panics as long as nothing has subscribed, which is
    how every call returns the flux: it reads the missing subscriber. *)
Definition subscribes (x : op) : bool := match x with FSub _ _ | FAsync | FRun _ => true | _ => false end.
Theorem C106_block_unsubscribed_panics : forall xs s k, rf_run xs rf_init = Some s -> Forall (fun x => subscribes x = false) xs ->
  exists s', rf_step s (FBlock k) = Some s' /\ rf_trace s' = rf_trace s ++ [BlockPanicked k].
Proof.
  intros xs s k H F. assert (I : rf_subs s = [] /\ rf_subscribed s = false).
  { revert F. revert xs s H. apply (run_ind (fun xs s => Forall (fun x => subscribes x = false) xs -> rf_subs s = [] /\ rf_subscribed s = false)); [intros _; split; reflexivity|].
    intros xs x s s' IH Q F. apply forall_snoc_inv in F. destruct F as [F1 F2]. destruct (IH F1) as [I1 I2]. destruct x; try discriminate F2; cbn [rf_step] in Q; rewrite ?I2, ?I1 in Q; try discriminate Q; injection Q as <-.
    - unfold notify, current. rewrite I1. cbn. auto.
    - unfold block, current. rewrite I1. cbn. auto.
    - cbn. auto. }
  destruct I as [I _]. cbn [rf_step]. eexists. split; [reflexivity|]. unfold block, current. rewrite I. reflexivity.
Qed.
(** After [Async] it may wait for ever: if the end arrives before the goroutine of
    [Block] has subscribed, [Block] never returns, whatever is done afterwards, but
    for arrivals on a stream that has ended. *)
Theorem C106_block_race_refuted : forall (e : option E) k ys s', Forall (fun x => arrives x = false) ys -> ~ In (FBlock k) ys ->
  rf_run ([FAsync; FBlock k; FEnd e; FRun 1] ++ ys) rf_init = Some s' -> forall r, ~ In (BlockReturned k r) (rf_trace s').
Proof.
  intros e k ys s' F Nb R r Hin. rewrite run_app in R. match type of R with (match ?t with _ => _ end = _) => destruct t as [s|] eqn:E0; [|discriminate R] end.
  destruct (C106_nothing_without_the_peer _ s ys s' E0 R F) as (new & T & Fn). assert (T0 : rf_trace s = []) by (destruct e; cbn in E0; injection E0 as <-; reflexivity).
  rewrite T, T0 in Hin. cbn [app] in Hin. rewrite Forall_forall in Fn. exact (Nb (Fn _ Hin)).
Qed.
(** The function [flux.Block] on a stream nobody has read gives its caller every
    value, in the order of arrival, and returns at the end, with its error; one
    request asks for all of it. *)
Lemma give_all : forall vs k (s : state) m, rf_subscribed s = true -> rf_subs s = [{| fs_owner := Blocked k; fs_end := None; fs_wired := true; fs_n := m; fs_asks := Some request_max |}] ->
  (Z.of_nat (List.length vs) < m)%Z ->
  exists s', rf_run (map FValue vs) s = Some s' /\ rf_subscribed s' = true /\ rf_subs s' = [{| fs_owner := Blocked k; fs_end := None; fs_wired := true; fs_n := m - Z.of_nat (List.length vs); fs_asks := Some request_max |}] /\
    rf_callbacks s' = rf_callbacks s /\ rf_goroutines s' = rf_goroutines s /\ rf_trace s' = rf_trace s ++ map (Gave k) vs.
Proof.
  induction vs as [|v vs IH]; intros k s m Sb Hs Hm; cbn [List.length map] in *.
  - exists s. cbn. rewrite app_nil_r, Z.sub_0_r. auto 10.
  - cbn [rf_run rf_step]. rewrite Sb. set (s1 := value v s).
    assert (K : rf_subscribed s1 = true /\ rf_subs s1 = [{| fs_owner := Blocked k; fs_end := None; fs_wired := true; fs_n := m - 1; fs_asks := Some request_max |}] /\ rf_callbacks s1 = rf_callbacks s /\ rf_goroutines s1 = rf_goroutines s /\ rf_trace s1 = rf_trace s ++ [Gave k v]).
    { subst s1. unfold value, current. rewrite Hs. cbn [List.length pred nth_error fs_end fs_owner fs_wired fs_n fs_asks]. destruct (m - 1 =? 0)%Z eqn:Z0; [apply Z.eqb_eq in Z0; lia|]. cbn. rewrite Hs. auto. }
    destruct K as (K1 & K2 & K3 & K4 & K5). destruct (IH k s1 (m - 1)%Z K1 K2 ltac:(lia)) as (s' & R & A & B & C & D & T). exists s'. rewrite C, D, T, K3, K4, K5, <- app_assoc.
    replace (m - Z.of_nat (S (List.length vs)))%Z with (m - 1 - Z.of_nat (List.length vs))%Z by lia. auto 10.
Qed.
Theorem C106_block_on_fresh : forall (vs : list V) (e : option E) k, (Z.of_nat (List.length vs) < request_max)%Z ->
  exists s', rf_run ([FBlockOn k; FRun 0; FRun 0] ++ map FValue vs ++ [FEnd e]) rf_init = Some s' /\ rf_trace s' = Opened request_max :: map (Gave k) vs ++ [BlockReturned k e].
Proof.
  intros vs e k Hm. rewrite run_app. set (r := rf_run [FBlockOn k; FRun 0; FRun 0] rf_init). cbn in r. subst r. cbn beta iota. rewrite run_app. match goal with |- context [rf_run (map FValue vs) ?t] => set (s0 := t) end.
  destruct (give_all vs k s0 request_max eq_refl eq_refl Hm) as (s' & R & A & B & C & D & T). rewrite R. cbn [rf_run rf_step]. rewrite A. eexists. split; [reflexivity|].
  rewrite (ended_open _ e s' B eq_refl). cbn [rf_trace fs_owner]. rewrite C, T. cbn. reflexivity.
Qed.
End C106.

(** A run that meets the hypotheses: awaited twice, with three values, two callbacks
    before the error and one after; then read again. *)
Example C106_example :
  (exists s, rf_run [FNotify 1; FAsync; FAsync; FRun 0; FValue 7; FNotify 2; FValue 8; FEnd (Some "lost"%string); FNotify 3; FEnd None] rf_init = Some s /\
    rf_trace s = [Opened request_max; FNotified 1 false; FNotified 2 false; FNotified 3 false]) /\
  (exists s s', rf_run [FSub 1 (Some 2%Z); FRun 0; FValue 7; FValue 8] rf_init = Some s /\ rf_goroutines s = [GRequest 2] /\
    rf_run [FRun 0; FEnd None; FSub 2 (Some 5%Z); FAsk 1 6] s = Some s' /\ rf_trace s' = [Opened 2; Gave 1 7; Gave 1 8; Requested 2; Ended 1 (None : option string)] /\ rf_goroutines s' = []) /\
  (exists s, rf_run [FNotify 1; FBlockOn 4; FBlock 3] (@rf_init N string) = Some s /\ rf_trace s = [BlockPanicked 3]) /\
  (exists s, rf_run [FAsync; FBlock 3; FEnd None; FRun 1; FRun 0; FNotify 1] (@rf_init N string) = Some s /\ rf_trace s = [] /\ rf_goroutines s = []) /\
  (exists s, rf_run [FAsync; FRun 0; FBlock 3; FRun 0; FValue 7; FEnd None; FBlock 4] (@rf_init N string) = Some s /\ rf_trace s = [Opened request_max; Gave 3 7; BlockReturned 3 None; BlockReturned 4 None]) /\
  (exists s, rf_run ([FAsync; FRun 0; FEnd None; FBlockOn 5] ++ [FRun 0; FSub 6 (Some 1%Z); FNotify 1]) (@rf_init N string) = Some s /\ rf_trace s = [Opened request_max] /\ List.length (rf_subs s) = 3%nat).
Proof.
  split; [|split; [|split; [|split; [|split]]]]; vm_compute.
  - eexists. split; reflexivity.
  - eexists. eexists. repeat split; reflexivity.
  - eexists. split; reflexivity.
  - eexists. repeat split; reflexivity.
  - eexists. split; reflexivity.
  - eexists. repeat split; reflexivity.
Qed.
Print Assumptions C106_opened_once.
Print Assumptions C106_later_subscribers_send_nothing.
Print Assumptions C106_nothing_without_the_peer.
Print Assumptions C106_read_again_refuted.
Print Assumptions C106_awaited.
Print Assumptions C106_block_unsubscribed_panics.
Print Assumptions C106_block_race_refuted.
Print Assumptions C106_block_on_fresh.
