(** Invariants of the mono machine. *)
From Verif Require Import Base MonoModel.
From Coq Require Import Permutation.

Definition first {A} (l : list A) : option A := match l with a :: _ => Some a | [] => None end.
Lemma nth_mset {A} (l : list A) i x j :
  (i < List.length l)%nat -> nth_error (mset l i x) j = if Nat.eqb i j then Some x else nth_error l j.
Proof.
  intros H. unfold mset. destruct (Nat.eqb i j) eqn:Eij.
  - apply Nat.eqb_eq in Eij as <-. rewrite nth_error_app2 by (rewrite firstn_length; lia).
    rewrite firstn_length. replace (i - Nat.min i (List.length l))%nat with 0%nat by lia. reflexivity.
  - apply Nat.eqb_neq in Eij. destruct (Nat.lt_ge_cases j i).
    + rewrite nth_error_app1 by (rewrite firstn_length; lia).
      revert i H H0 Eij. revert j. induction l; intros j i; cbn [length]; intros; [destruct j; lia|].
      destruct i; [lia|]. destruct j; [reflexivity|]. cbn. apply IHl; lia.
    + rewrite nth_error_app2 by (rewrite firstn_length; lia). rewrite firstn_length.
      replace (Nat.min i (List.length l)) with i by lia.
      destruct (j - i)%nat eqn:Ej; [lia|]. cbn [nth_error].
      replace j with (S i + n)%nat by lia. clear.
      revert l n. generalize (S i) as p. clear. induction p; intros l n; [reflexivity|].
      destruct l; [rewrite skipn_nil; cbn; now destruct n|]. cbn [skipn Nat.add nth_error]. apply IHp.
Qed.
Lemma mset_length {A} (l : list A) i x : (i < List.length l)%nat -> List.length (mset l i x) = List.length l.
Proof. intros. unfold mset. rewrite app_length, firstn_length. cbn [List.length]. rewrite skipn_length. lia. Qed.
Lemma first_app {A} (a b : list A) : first (a ++ b) = match first a with Some x => Some x | None => first b end.
Proof. destruct a; reflexivity. Qed.
Lemma nth_some_lt {A} (l : list A) i x : nth_error l i = Some x -> (i < List.length l)%nat.
Proof. intros H. apply nth_error_Some. congruence. Qed.

Lemma in_firstn {A} (x : A) n l : In x (firstn n l) -> In x l.
Proof. intros H. rewrite <- (firstn_skipn n l). apply in_app_iff. now left. Qed.
Lemma in_skipn {A} (x : A) n l : In x (skipn n l) -> In x l.
Proof. intros H. rewrite <- (firstn_skipn n l). apply in_app_iff. now right. Qed.
Section Facts.
Context {V E O C St : Type}.
Notation event := (mevent V E O).
Notation conf := (mconf V E O C St).
Variable source : nat -> list (mact V E O C).
Variable code : C -> list event -> St -> option (St * list (mact V E O C)).

(** *** What a trace says *)
Definition call_of (s : nat) (ev : event) : list (mcall V E) :=
  match ev with ECalled s' c => if Nat.eqb s' s then [c] else [] | _ => [] end.
Definition calls (s : nat) (t : list event) := flat_map (call_of s) t.
Definition outcome_of (s : nat) (ev : event) : list (V + E) :=
  match ev with
  | EOnSuccess s' v => if Nat.eqb s' s then [inl v] else []
  | EOnError s' e => if Nat.eqb s' s then [inr e] else []
  | _ => []
  end.
Definition outcomes (s : nat) (t : list event) := flat_map (outcome_of s) t.
Definition signal_of (s : nat) (ev : event) : list signal :=
  match ev with ESignal s' g => if Nat.eqb s' s then [g] else [] | _ => [] end.
Definition signals (s : nat) (t : list event) := flat_map (signal_of s) t.
Definition final_of (s : nat) (ev : event) : list signal :=
  match ev with EFinally s' g => if Nat.eqb s' s then [g] else [] | _ => [] end.
Definition finals (s : nat) (t : list event) := flat_map (final_of s) t.
Definition registered_of (ev : event) : list N := match ev with ERegistered i => [i] | _ => [] end.
Definition registered (t : list event) := flat_map registered_of t.
Definition fired_of (ev : event) : list N := match ev with EFired i _ => [i] | _ => [] end.
Definition fired (t : list event) := flat_map fired_of t.

Definition call_signal (c : mcall V E) : signal :=
  match c with CSuccess _ => SigComplete | CError _ => SigError | CCancel => SigCancel end.
Definition call_value (c : mcall V E) : option V := match c with CSuccess v => Some v | _ => None end.
Definition call_error (c : mcall V E) : option E := match c with CError e => Some e | _ => None end.
(** Which callback the first call causes, given which ones the subscriber has. *)
Definition call_outcome (h : handlers V E O C) (c : mcall V E) : list (V + E) :=
  match c with
  | CSuccess v => if h_success h then [inl v] else []
  | CError e => if h_error h then [inr e] else []
  | CCancel => []
  end.
Definition lift {A B} (f : A -> option B) (a : option A) : option B := match a with Some a => f a | None => None end.

(** *** Invariant of one subscription *)
Definition pend_of (s : nat) (i : mitem V E O C) : list signal :=
  match i with IFinally s' g => if Nat.eqb s' s then [g] else [] | _ => [] end.
Definition pend (s : nat) (k : list (mitem V E O C)) := flat_map (pend_of s) k.

Record sub_inv (c : conf) (s : nat) (m : msub V E O C) : Prop := {
  si_closed : ms_closed m = match first (calls s (mc_trace c)) with Some _ => true | None => false end;
  si_value : ms_value m = lift call_value (first (calls s (mc_trace c)));
  si_err : ms_err m = lift call_error (first (calls s (mc_trace c)));
  si_out : outcomes s (mc_trace c) = match first (calls s (mc_trace c)) with Some k => call_outcome (ms_h m) k | None => [] end;
  si_sig : signals s (mc_trace c) ++ pend s (mc_stack c) = match first (calls s (mc_trace c)) with Some k => [call_signal k] | None => [] end;
  si_fin : finals s (mc_trace c) = if h_finally (ms_h m) then signals s (mc_trace c) else [];
  si_cur : ms_signal m = match first (signals s (mc_trace c)) with Some g => g | None => SigComplete end }.
Record no_inv (c : conf) (s : nat) : Prop := {
  ni_calls : calls s (mc_trace c) = [];
  ni_out : outcomes s (mc_trace c) = [];
  ni_sig : signals s (mc_trace c) = [];
  ni_pend : pend s (mc_stack c) = [];
  ni_fin : finals s (mc_trace c) = [] }.
Definition minv (c : conf) : Prop :=
  forall s, match nth_error (mc_subs c) s with Some m => sub_inv c s m | None => no_inv c s end.

Lemma pend_acts s l : pend s (acts l) = [].
Proof. induction l; cbn; auto. Qed.
Lemma pend_app s a b : pend s (a ++ b) = pend s a ++ pend s b.
Proof. apply flat_map_app. Qed.
Lemma pend_fires s (l : list (N * (list event -> signal -> list (mact V E O C)))) g :
  pend s (map (fun cb => IFire (fst cb) (snd cb) g) l) = [].
Proof. induction l; cbn; auto. Qed.
(** Steps that leave a subscription alone. *)
Definition quiet (s : nat) (ev : list event) : Prop :=
  calls s ev = [] /\ outcomes s ev = [] /\ signals s ev = [] /\ finals s ev = [].
Lemma sub_inv_quiet (c c' : conf) s m ev :
  sub_inv c s m -> mc_trace c' = mc_trace c ++ ev -> quiet s ev -> pend s (mc_stack c') = pend s (mc_stack c) -> sub_inv c' s m.
Proof.
  intros [A1 A2 A3 A4 A5 A6 A7] T (Q1 & Q2 & Q3 & Q4) P.
  assert (HC : calls s (mc_trace c') = calls s (mc_trace c)) by (rewrite T; unfold calls in *; rewrite flat_map_app, Q1; apply app_nil_r).
  assert (HO : outcomes s (mc_trace c') = outcomes s (mc_trace c)) by (rewrite T; unfold outcomes in *; rewrite flat_map_app, Q2; apply app_nil_r).
  assert (HS : signals s (mc_trace c') = signals s (mc_trace c)) by (rewrite T; unfold signals in *; rewrite flat_map_app, Q3; apply app_nil_r).
  assert (HF : finals s (mc_trace c') = finals s (mc_trace c)) by (rewrite T; unfold finals in *; rewrite flat_map_app, Q4; apply app_nil_r).
  constructor; rewrite ?HC, ?HO, ?HS, ?HF, ?P; assumption.
Qed.
Lemma no_inv_quiet (c c' : conf) s ev :
  no_inv c s -> mc_trace c' = mc_trace c ++ ev -> quiet s ev -> pend s (mc_stack c') = pend s (mc_stack c) -> no_inv c' s.
Proof.
  intros [A1 A2 A3 A4 A5] T (Q1 & Q2 & Q3 & Q4) P.
  constructor; rewrite ?T, ?P; try assumption;
    unfold calls, outcomes, signals, finals in *; rewrite flat_map_app; rewrite ?A1, ?A2, ?A3, ?A5, ?Q1, ?Q2, ?Q3, ?Q4; reflexivity.
Qed.
Lemma minv_quiet (c c' : conf) ev :
  minv c -> mc_subs c' = mc_subs c -> mc_trace c' = mc_trace c ++ ev ->
  (forall s, quiet s ev) -> (forall s, pend s (mc_stack c') = pend s (mc_stack c)) -> minv c'.
Proof.
  intros I Hs T Q P s. rewrite Hs. specialize (I s). destruct (nth_error (mc_subs c) s).
  - eapply sub_inv_quiet; eauto.
  - eapply no_inv_quiet; eauto.
Qed.
(** Steps of subscription [s]. *)
Lemma minv_sub (c c' : conf) s m m' ev :
  minv c -> nth_error (mc_subs c) s = Some m -> mc_subs c' = mset (mc_subs c) s m' -> mc_trace c' = mc_trace c ++ ev ->
  (forall j, j <> s -> quiet j ev /\ pend j (mc_stack c') = pend j (mc_stack c)) -> sub_inv c' s m' -> minv c'.
Proof.
  intros I Hm Hs T Q P j. rewrite Hs, nth_mset by (eapply nth_some_lt; eauto).
  destruct (Nat.eqb s j) eqn:Esj.
  - apply Nat.eqb_eq in Esj as <-. exact P.
  - apply Nat.eqb_neq in Esj. specialize (I j). destruct (Q j ltac:(congruence)) as [Q1 Q2].
    destruct (nth_error (mc_subs c) j); [eapply sub_inv_quiet|eapply no_inv_quiet]; eauto.
Qed.

Ltac quiet_tac := intros; repeat split; cbn; repeat match goal with |- context [Nat.eqb ?a ?b] => replace (Nat.eqb a b) with false by (symmetry; apply Nat.eqb_neq; congruence) end; reflexivity.

Lemma call_fresh (c c' : conf) s m m' k ev tail :
  sub_inv c s m -> ms_closed m = false ->
  m' = {| ms_closed := true; ms_value := match call_value k with Some v => Some v | None => ms_value m end;
          ms_err := match call_error k with Some e => Some e | None => ms_err m end; ms_signal := ms_signal m; ms_h := ms_h m |} ->
  ev = ECalled s k :: tail -> calls s tail = [] -> outcomes s tail = call_outcome (ms_h m) k -> signals s tail = [] -> finals s tail = [] ->
  mc_trace c' = mc_trace c ++ ev -> pend s (mc_stack c') = pend s (mc_stack c) ++ [call_signal k] -> sub_inv c' s m'.
Proof.
  intros I Cl -> -> T1 T2 T3 T4 T P.
  destruct I as [A1 A2 A3 A4 A5 A6 A7].
  rewrite Cl in A1. destruct (first (calls s (mc_trace c))) as [k0|] eqn:Ek; [discriminate|].
  assert (HC : first (calls s (mc_trace c')) = Some k).
  { rewrite T. unfold calls in *. rewrite flat_map_app, first_app, Ek. cbn. now rewrite Nat.eqb_refl. }
  assert (HO : outcomes s (mc_trace c') = call_outcome (ms_h m) k).
  { rewrite T. unfold outcomes in *. rewrite flat_map_app, A4. cbn. exact T2. }
  apply app_eq_nil in A5 as [A5 A5'].
  assert (HS : signals s (mc_trace c') = []).
  { rewrite T. unfold signals in *. rewrite flat_map_app, A5. cbn. exact T3. }
  assert (HF : finals s (mc_trace c') = []).
  { rewrite T. unfold finals in *. rewrite flat_map_app, A6, A5. cbn. rewrite T4. now destruct (h_finally (ms_h m)). }
  rewrite A5 in A7.
  constructor; rewrite ?HC, ?HO, ?HS, ?HF; cbn.
  - reflexivity.
  - rewrite A2. now destruct k.
  - rewrite A3. now destruct k.
  - reflexivity.
  - rewrite P, A5'. reflexivity.
  - now destruct (h_finally (ms_h m)).
  - exact A7.
Qed.

Lemma minv_call c s k rest : minv c -> mc_stack c = IAct (ACall s k) :: rest -> minv (do_call s k rest c).
Proof.
  intros I Hk. unfold do_call. pose proof (I s) as Is. destruct (nth_error (mc_subs c) s) as [m|] eqn:Em.
  2:{ eapply minv_quiet with (ev := []); eauto; [quiet_tac|]. intros. cbn. now rewrite Hk. }
  assert (Hset : forall j, j <> s -> mset (mc_subs c) s m = mset (mc_subs c) s m) by reflexivity.
  destruct (ms_closed m) eqn:Cl.
  { eapply minv_sub with (ev := [ECalled s k]) (s := s) (m := m) (m' := m); eauto.
    - cbn. symmetry. clear -Em. unfold mset. revert s Em. induction (mc_subs c); intros [|s] H; try discriminate; cbn in *; [congruence|].
      f_equal. now apply IHl.
    - intros j Hj. split; [quiet_tac|]. cbn. now rewrite Hk.
    - destruct Is as [A1 A2 A3 A4 A5 A6 A7]. rewrite Cl in A1.
      destruct (first (calls s (mc_trace c))) as [k0|] eqn:Ek; [|discriminate].
      assert (HC : first (calls s (mc_trace c ++ [ECalled s k])) = Some k0).
      { unfold calls in *. rewrite flat_map_app, first_app, Ek. reflexivity. }
      assert (HO : outcomes s (mc_trace c ++ [ECalled s k]) = outcomes s (mc_trace c)).
      { unfold outcomes. rewrite flat_map_app. cbn. apply app_nil_r. }
      assert (HS : signals s (mc_trace c ++ [ECalled s k]) = signals s (mc_trace c)).
      { unfold signals. rewrite flat_map_app. cbn. apply app_nil_r. }
      assert (HF : finals s (mc_trace c ++ [ECalled s k]) = finals s (mc_trace c)).
      { unfold finals. rewrite flat_map_app. cbn. apply app_nil_r. }
      rewrite Hk in A5. cbn in A5.
      constructor; cbn [emit mc_trace mc_stack mc_subs]; rewrite ?HC, ?HO, ?HS, ?HF; assumption. }
  destruct k as [v|e|].
  - destruct (h_success (ms_h m)) as [f|] eqn:Hf.
    + eapply minv_sub with (ev := [ECalled s (CSuccess v); EOnSuccess s v]) (s := s) (m := m); [exact I|exact Em|reflexivity|reflexivity| |].
      * intros j Hj. split; [quiet_tac|]. cbn [emit mc_stack]. rewrite Hk, pend_app, pend_acts. cbn.
        now replace (Nat.eqb s j) with false by (symmetry; apply Nat.eqb_neq; congruence).
      * eapply call_fresh with (tail := [EOnSuccess s v]) (k := CSuccess v); try exact Is; try reflexivity; try assumption.
        -- unfold call_outcome. rewrite Hf. cbn. rewrite Nat.eqb_refl. reflexivity.
        -- cbn [emit mc_stack]. rewrite Hk, pend_app, pend_acts. cbn. rewrite Nat.eqb_refl.
           destruct Is as [A1 A2 A3 A4 A5 A6 A7]. rewrite Cl in A1. destruct (first (calls s (mc_trace c))); [discriminate|].
           apply app_eq_nil in A5 as [_ A5]. rewrite Hk in A5. cbn in A5. now rewrite A5.
    + eapply minv_sub with (ev := [ECalled s (CSuccess v)]) (s := s) (m := m); [exact I|exact Em|reflexivity|reflexivity| |].
      * intros j Hj. split; [quiet_tac|]. cbn. rewrite Hk. cbn.
        now replace (Nat.eqb s j) with false by (symmetry; apply Nat.eqb_neq; congruence).
      * eapply call_fresh with (tail := []) (k := CSuccess v); try exact Is; try reflexivity; try assumption.
        -- unfold call_outcome. rewrite Hf. reflexivity.
        -- cbn. rewrite Hk. cbn. rewrite Nat.eqb_refl.
           destruct Is as [A1 A2 A3 A4 A5 A6 A7]. rewrite Cl in A1. destruct (first (calls s (mc_trace c))); [discriminate|].
           apply app_eq_nil in A5 as [_ A5]. rewrite Hk in A5. cbn in A5. now rewrite A5.
  - destruct (h_error (ms_h m)) as [f|] eqn:Hf.
    + eapply minv_sub with (ev := [ECalled s (CError e); EOnError s e]) (s := s) (m := m); [exact I|exact Em|reflexivity|reflexivity| |].
      * intros j Hj. split; [quiet_tac|]. cbn [emit mc_stack]. rewrite Hk, pend_app, pend_acts. cbn.
        now replace (Nat.eqb s j) with false by (symmetry; apply Nat.eqb_neq; congruence).
      * eapply call_fresh with (tail := [EOnError s e]) (k := CError e); try exact Is; try reflexivity; try assumption.
        -- unfold call_outcome. rewrite Hf. cbn. rewrite Nat.eqb_refl. reflexivity.
        -- cbn [emit mc_stack]. rewrite Hk, pend_app, pend_acts. cbn. rewrite Nat.eqb_refl.
           destruct Is as [A1 A2 A3 A4 A5 A6 A7]. rewrite Cl in A1. destruct (first (calls s (mc_trace c))); [discriminate|].
           apply app_eq_nil in A5 as [_ A5]. rewrite Hk in A5. cbn in A5. now rewrite A5.
    + eapply minv_sub with (ev := [ECalled s (CError e)]) (s := s) (m := m); [exact I|exact Em|reflexivity|reflexivity| |].
      * intros j Hj. split; [quiet_tac|]. cbn. rewrite Hk. cbn.
        now replace (Nat.eqb s j) with false by (symmetry; apply Nat.eqb_neq; congruence).
      * eapply call_fresh with (tail := []) (k := CError e); try exact Is; try reflexivity; try assumption.
        -- unfold call_outcome. rewrite Hf. reflexivity.
        -- cbn. rewrite Hk. cbn. rewrite Nat.eqb_refl.
           destruct Is as [A1 A2 A3 A4 A5 A6 A7]. rewrite Cl in A1. destruct (first (calls s (mc_trace c))); [discriminate|].
           apply app_eq_nil in A5 as [_ A5]. rewrite Hk in A5. cbn in A5. now rewrite A5.
  - eapply minv_sub with (ev := [ECalled s CCancel]) (s := s) (m := m); [exact I|exact Em|reflexivity|reflexivity| |].
    + intros j Hj. split; [quiet_tac|]. cbn. rewrite Hk. cbn.
      now replace (Nat.eqb s j) with false by (symmetry; apply Nat.eqb_neq; congruence).
    + eapply call_fresh with (tail := []) (k := CCancel); try exact Is; try reflexivity; try assumption.
      cbn. rewrite Hk. cbn. rewrite Nat.eqb_refl.
      destruct Is as [A1 A2 A3 A4 A5 A6 A7]. rewrite Cl in A1. destruct (first (calls s (mc_trace c))); [discriminate|].
      apply app_eq_nil in A5 as [_ A5]. rewrite Hk in A5. cbn in A5. now rewrite A5.
Qed.

Lemma minv_finally c s g rest : minv c -> mc_stack c = IFinally s g :: rest -> minv (do_finally s g rest c).
Proof.
  intros I Hk. unfold do_finally. pose proof (I s) as Is. destruct (nth_error (mc_subs c) s) as [m|] eqn:Em.
  2:{ exfalso. destruct Is as [_ _ _ P _]. rewrite Hk in P. cbn in P. rewrite Nat.eqb_refl in P. discriminate. }
  destruct Is as [A1 A2 A3 A4 A5 A6 A7]. rewrite Hk in A5. cbn in A5. rewrite Nat.eqb_refl in A5.
  destruct (first (calls s (mc_trace c))) as [k|] eqn:Ek.
  2:{ exfalso. destruct (signals s (mc_trace c)); discriminate. }
  assert (X : signals s (mc_trace c) = [] /\ g = call_signal k /\ pend s rest = []).
  { destruct (signals s (mc_trace c)) as [|? [|? ?]]; cbn in A5; inversion A5; auto. }
  destruct X as (X1 & -> & X3). clear A5. rewrite X1 in A6.
  assert (X6 : finals s (mc_trace c) = []) by (rewrite A6; now destruct (h_finally (ms_h m))). clear A6.
  destruct (h_finally (ms_h m)) as [f|] eqn:Hf.
  - eapply minv_sub with (ev := [ESignal s (call_signal k); EFinally s (call_signal k)]) (s := s) (m := m); [exact I|exact Em|reflexivity|reflexivity| |].
    + intros j Hj. split; [quiet_tac|]. cbn [emit mc_stack]. rewrite Hk, pend_app, pend_acts. cbn.
      now replace (Nat.eqb s j) with false by (symmetry; apply Nat.eqb_neq; congruence).
    + constructor; cbn [emit mc_trace mc_stack mc_subs ms_closed ms_value ms_err ms_signal ms_h];
        unfold calls, outcomes, signals, finals in *; rewrite !flat_map_app; cbn; rewrite ?app_nil_r, ?Nat.eqb_refl, ?Ek, ?X1, ?X6, ?Hf; auto.
      rewrite pend_app, pend_acts. unfold pend in *. cbn. now rewrite X3.
  - eapply minv_sub with (ev := [ESignal s (call_signal k)]) (s := s) (m := m); [exact I|exact Em|reflexivity|reflexivity| |].
    + intros j Hj. split; [quiet_tac|]. cbn. rewrite Hk. cbn.
      now replace (Nat.eqb s j) with false by (symmetry; apply Nat.eqb_neq; congruence).
    + constructor; cbn [emit mc_trace mc_stack mc_subs ms_closed ms_value ms_err ms_signal ms_h];
        unfold calls, outcomes, signals, finals in *; rewrite !flat_map_app; cbn; rewrite ?app_nil_r, ?Nat.eqb_refl, ?Ek, ?X1, ?X6, ?Hf; auto.
      unfold pend in *. cbn. now rewrite X3.
Qed.

Lemma minv_step c i : minv c -> minv (mstep source code c i).
Proof.
  intros I. unfold mstep. destruct (mc_panicked c); [exact I|].
  destruct (mc_stack c) as [|it rest] eqn:Hk.
  - destruct (nth_error (mc_threads c) i); [|exact I].
    eapply minv_quiet with (ev := []); eauto; [cbn; now rewrite app_nil_r|quiet_tac|]. intros. rewrite Hk. apply pend_acts.
  - destruct it as [[s k|h|id fn| |o|k]|s g|s g|id fn g]; cbn [do_item].
    + now apply minv_call.
    + intros s. pose proof (I s) as Is. cbn [mc_subs mc_trace mc_stack].
      destruct (Nat.lt_ge_cases s (List.length (mc_subs c))).
      * rewrite nth_error_app1 by assumption. destruct (nth_error (mc_subs c) s) eqn:En; [|apply nth_error_None in En; lia].
        eapply sub_inv_quiet with (ev := []); eauto; [cbn; now rewrite app_nil_r|quiet_tac|]. cbn [mc_stack]. rewrite pend_app, pend_acts, Hk. reflexivity.
      * rewrite (proj2 (nth_error_None _ _)) in Is by assumption.
        destruct (Nat.eq_dec s (List.length (mc_subs c))) as [-> |Hne].
        -- rewrite nth_error_app2, Nat.sub_diag by lia. cbn [nth_error]. destruct Is as [B1 B2 B3 B4 B5].
           constructor; cbn [mc_trace mc_stack ms_closed ms_value ms_err ms_signal ms_h]; rewrite ?B1, ?B2, ?B3, ?B5; try reflexivity.
           ++ rewrite pend_app, pend_acts. rewrite Hk in B4. exact B4.
           ++ now destruct (h_finally h).
        -- rewrite (proj2 (nth_error_None _ _)) by (rewrite app_length; cbn; lia).
           eapply no_inv_quiet with (ev := []); eauto; [cbn; now rewrite app_nil_r|quiet_tac|]. cbn [mc_stack]. rewrite pend_app, pend_acts, Hk. reflexivity.
    + unfold do_notify. destruct (match mc_cur c with Some _ => _ | None => _ end) as [m|] eqn:Em; [destruct (ms_closed m)|];
        (eapply minv_quiet with (ev := [ERegistered id]); eauto; [quiet_tac|]; intros; cbn; rewrite Hk; reflexivity).
    + destruct (match mc_cur c with Some _ => _ | None => _ end) as [m|] eqn:Em; [destruct (ms_closed m)|].
      * eapply minv_quiet with (ev := [EGot (ms_value m) (ms_err m)]); eauto; [quiet_tac|]. intros. cbn. now rewrite Hk.
      * eapply minv_quiet with (ev := []); eauto; [cbn; now rewrite app_nil_r|quiet_tac].
      * eapply minv_quiet with (ev := []); eauto; [cbn; now rewrite app_nil_r|quiet_tac].
    + eapply minv_quiet with (ev := [EObs o]); eauto; [quiet_tac|]. intros. cbn. now rewrite Hk.
    + destruct (code k (mc_trace c) (mc_store c)) as [[st l]|].
      * eapply minv_quiet with (ev := []); eauto; [cbn; now rewrite app_nil_r|quiet_tac|]. intros. cbn [mc_stack]. rewrite pend_app, pend_acts, Hk. reflexivity.
      * eapply minv_quiet with (ev := []); eauto; [cbn; now rewrite app_nil_r|quiet_tac].
    + now apply minv_finally.
    + eapply minv_quiet with (ev := []); eauto; [quiet_tac|]. intros. cbn [emit mc_stack]. rewrite pend_app, pend_fires, Hk. reflexivity.
    + eapply minv_quiet with (ev := [EFired id g]); eauto; [quiet_tac|]. intros. cbn [emit mc_stack]. rewrite pend_app, pend_acts, Hk. reflexivity.
Qed.
Lemma minv_run sched c : minv c -> minv (mrun source code sched c).
Proof. revert c. induction sched; intros c I; [exact I|]. cbn. apply IHsched. now apply minv_step. Qed.
Lemma minv_init st threads : minv (minit st threads).
Proof. intros s. cbn. destruct s; constructor; reflexivity. Qed.

(** *** Notifications and Get, with at most one subscription *)
Definition firing_of (i : mitem V E O C) : list N := match i with IFire id _ _ => [id] | _ => [] end.
Definition firing (k : list (mitem V E O C)) := flat_map firing_of k.
Definition is_loop (i : mitem V E O C) : bool := match i with IFinally _ _ | ILoop _ _ => true | _ => false end.
Definition loops (k : list (mitem V E O C)) : nat := List.length (filter is_loop k).
(** Signals of pending notifications; nothing is pending below a [finally]. *)
Fixpoint stack_ok (g : signal) (k : list (mitem V E O C)) : Prop :=
  match k with
  | [] => True
  | IFire _ _ g' :: k => g' = g /\ stack_ok g k
  | IFinally _ _ :: k => firing k = []
  | ILoop _ g' :: k => g' = g /\ firing k = []
  | IAct _ :: k => stack_ok g k
  end.
Definition sig_after (t : list event) : signal := match first (signals 0 t) with Some g => g | None => SigComplete end.
Definition fired_ok (t : list event) : Prop := forall t1 id g t2, t = t1 ++ EFired id g :: t2 -> g = sig_after t1.
Definition got_ok (t : list event) : Prop :=
  forall v e, In (EGot v e) t -> exists k, first (calls 0 t) = Some k /\ v = call_value k /\ e = call_error k.
Definition ids (l : list (N * (list event -> signal -> list (mact V E O C)))) : list N := map fst l.
Definition one_inv (c : conf) (m : msub V E O C) : Prop :=
  mc_cur c = Some 0%nat /\
  Permutation (registered (mc_trace c))
    (fired (mc_trace c) ++ firing (mc_stack c) ++
     (if negb (ms_closed m) || negb (Nat.eqb (loops (mc_stack c)) 0) then ids (mc_callbacks c) else [])) /\
  (loops (mc_stack c) <= 1)%nat /\
  (ms_closed m = false -> loops (mc_stack c) = 0%nat /\ firing (mc_stack c) = []) /\
  stack_ok (ms_signal m) (mc_stack c) /\ fired_ok (mc_trace c) /\ got_ok (mc_trace c).
Definition ninv (c : conf) : Prop :=
  match mc_subs c with
  | [] => mc_cur c = None /\ fired (mc_trace c) = [] /\ firing (mc_stack c) = [] /\ loops (mc_stack c) = 0%nat /\
          registered (mc_trace c) = ids (mc_callbacks c) /\ fired_ok (mc_trace c) /\ got_ok (mc_trace c)
  | [m] => one_inv c m
  | _ => True
  end.
Lemma firing_acts l : firing (acts l) = []. Proof. induction l; cbn; auto. Qed.
Lemma firing_app a b : firing (a ++ b) = firing a ++ firing b. Proof. apply flat_map_app. Qed.
Lemma loops_app a b : loops (a ++ b) = (loops a + loops b)%nat.
Proof. unfold loops. now rewrite filter_app, app_length. Qed.
Lemma loops_acts l : loops (acts l) = 0%nat. Proof. induction l; cbn; auto. Qed.
Lemma stack_ok_acts g l k : stack_ok g (acts l ++ k) <-> stack_ok g k. Proof. induction l; cbn; auto; reflexivity. Qed.
Lemma loops_fires (l : list (N * (list event -> signal -> list (mact V E O C)))) g :
  loops (map (fun cb => IFire (fst cb) (snd cb) g) l) = 0%nat.
Proof. induction l; cbn; auto. Qed.
Lemma firing_fires (l : list (N * (list event -> signal -> list (mact V E O C)))) g :
  firing (map (fun cb => IFire (fst cb) (snd cb) g) l) = ids l.
Proof. induction l; cbn; f_equal; auto. Qed.
Lemma stack_ok_nofire g k : firing k = [] -> loops k = 0%nat -> stack_ok g k.
Proof.
  induction k as [|[] k IH]; cbn; auto; intros H L; unfold loops in *; cbn in L; try discriminate. 
Qed.
Lemma stack_ok_fires (l : list (N * (list event -> signal -> list (mact V E O C)))) g k :
  stack_ok g (map (fun cb => IFire (fst cb) (snd cb) g) l ++ k) <-> stack_ok g k.
Proof. induction l; cbn; auto; [reflexivity|]. rewrite IHl. tauto. Qed.
Lemma fired_ok_snoc t e : fired_ok t -> (forall id g, e = EFired id g -> g = sig_after t) -> fired_ok (t ++ [e]).
Proof.
  intros H He t1 id g t2 Heq.
  destruct (@exists_last _ (EFired id g :: t2)) as (t' & x & Hx); [discriminate|].
  rewrite Hx, app_assoc in Heq. apply app_inj_tail in Heq as [Ht ->].
  destruct t' as [|y t'].
  - cbn in Hx. injection Hx as <- ->. rewrite app_nil_r in Ht. subst t. now apply (He id g).
  - cbn in Hx. injection Hx as <- ->. apply (H t1 id g t'). exact Ht.
Qed.
Lemma fired_ok_plain t ev : fired_ok t -> fired ev = [] -> fired_ok (t ++ ev).
Proof.
  revert t. induction ev as [|e ev IH]; intros t H F; [now rewrite app_nil_r|].
  cbn in F. apply app_eq_nil in F as [F1 F2].
  replace (t ++ e :: ev) with ((t ++ [e]) ++ ev) by now rewrite <- app_assoc.
  apply IH; [|exact F2]. apply fired_ok_snoc; [exact H|]. intros id g ->. discriminate.
Qed.
Lemma got_ok_plain t ev : got_ok t -> (forall v e, ~ In (EGot v e) ev) -> got_ok (t ++ ev).
Proof.
  intros H Hn v e Hin. apply in_app_iff in Hin as [Hin|Hin]; [|now apply Hn in Hin].
  destruct (H v e Hin) as (k & Hk & Hv). exists k. split; [|exact Hv].
  unfold calls in *. now rewrite flat_map_app, first_app, Hk.
Qed.
Ltac nogot := let X := fresh in intros ? ? X; repeat (destruct X as [X|X]; [discriminate|]); destruct X.

(** A step that changes neither subscriptions nor notifications. *)
Lemma one_inv_plain (c c' : conf) m m' ev :
  one_inv c m -> ms_closed m' = ms_closed m -> ms_signal m' = ms_signal m -> mc_cur c' = mc_cur c -> mc_callbacks c' = mc_callbacks c ->
  mc_trace c' = mc_trace c ++ ev -> registered ev = [] -> fired ev = [] -> (forall v e, ~ In (EGot v e) ev) ->
  firing (mc_stack c') = firing (mc_stack c) -> loops (mc_stack c') = loops (mc_stack c) ->
  (stack_ok (ms_signal m) (mc_stack c) -> stack_ok (ms_signal m) (mc_stack c')) -> one_inv c' m'.
Proof.
  intros (A1 & A2 & A3 & A4 & A5 & A6 & A7) Hc Hs H1 H2 T R F G Hf Hl Hst.
  unfold one_inv. rewrite H1, H2, T, Hf, Hl, Hc, Hs. repeat split; auto.
  - unfold registered, fired in *. rewrite !flat_map_app, R, F, !app_nil_r. exact A2.
  - now apply A4.
  - now apply A4.
  - now apply fired_ok_plain.
  - now apply got_ok_plain.
Qed.

Lemma ninv_many (c : conf) : (2 <= List.length (mc_subs c))%nat -> ninv c.
Proof. unfold ninv. destruct (mc_subs c) as [|? [|? ?]]; cbn; try lia. Qed.
Lemma do_call_len (c : conf) s k rest : List.length (mc_subs (do_call s k rest c)) = List.length (mc_subs c).
Proof.
  unfold do_call. destruct (nth_error (mc_subs c) s) eqn:X; [|reflexivity]. apply nth_some_lt in X.
  destruct (ms_closed m); [reflexivity|]. destruct k; [destruct (h_success (ms_h m))|destruct (h_error (ms_h m))|]; cbn [emit mc_subs]; now apply mset_length.
Qed.
Lemma do_finally_len (c : conf) s g rest : List.length (mc_subs (do_finally s g rest c)) = List.length (mc_subs c).
Proof.
  unfold do_finally. destruct (nth_error (mc_subs c) s) eqn:X; [|reflexivity]. apply nth_some_lt in X.
  destruct (h_finally (ms_h m)); cbn [emit mc_subs]; now apply mset_length.
Qed.
Lemma nth_nil {A} s : nth_error (@nil A) s = None. Proof. now destruct s. Qed.

Lemma ninv_call c s k rest :
  minv c -> ninv c -> mc_stack c = IAct (ACall s k) :: rest -> ninv (do_call s k rest c).
Proof.
  intros I N Hk.
  destruct (Nat.le_gt_cases 2 (List.length (mc_subs c))) as [L2|L2]; [apply ninv_many; now rewrite do_call_len|].
  unfold do_call. unfold ninv in N. destruct (mc_subs c) as [|m [|m2 subs]] eqn:Hs; [| |cbn in L2; lia].
  - rewrite nth_nil. unfold ninv, emit. cbn [mc_subs mc_trace mc_stack mc_cur mc_callbacks]. rewrite app_nil_r.
    rewrite Hk in N. exact N.
  - destruct s as [|s].
    2:{ cbn [nth_error]. rewrite nth_nil.
        unfold ninv. cbn [emit mc_subs]. eapply one_inv_plain with (ev := []); eauto; try reflexivity.
        all: cbn [emit mc_stack]; rewrite Hk; try reflexivity. auto. }
    cbn [nth_error]. destruct (ms_closed m) eqn:Cl.
    { unfold ninv. cbn [emit mc_subs]. eapply one_inv_plain with (ev := [ECalled 0 k]); eauto; try reflexivity.
      - nogot.
      - cbn [emit mc_stack]. now rewrite Hk.
      - cbn [emit mc_stack]. now rewrite Hk.
      - cbn [emit mc_stack]. now rewrite Hk. }
    destruct N as (A1 & A2 & A3 & A4 & A5 & A6 & A7). destruct (A4 Cl) as [L F].
    rewrite Hk in L, F. change (loops rest = 0%nat) in L. change (firing rest = []) in F.
    rewrite Hk, Cl in A2. cbn [negb orb] in A2. change (firing (IAct (ACall 0 k) :: rest)) with (firing rest) in A2. rewrite F in A2.
    assert (G : forall ev l g m', ms_closed m' = true -> registered ev = [] -> fired ev = [] -> (forall v e, ~ In (EGot v e) ev) ->
                one_inv (emit c [m'] ev (acts l ++ IFinally 0 g :: rest)) m').
    { intros ev l g m' Hm' R F' G'. unfold one_inv, emit. cbn [mc_subs mc_trace mc_stack mc_cur mc_callbacks].
      rewrite firing_app, firing_acts, loops_app, loops_acts, stack_ok_acts.
      change (loops (IFinally 0 g :: rest)) with (S (loops rest)). change (firing (IFinally 0 g :: rest)) with (firing rest).
      rewrite L, F. cbn [Nat.add Nat.eqb negb]. rewrite orb_true_r. repeat split; auto; try congruence.
      - unfold registered, fired in *. rewrite !flat_map_app, R, F', !app_nil_r. exact A2.
      - now apply fired_ok_plain.
      - now apply got_ok_plain. }
    destruct k as [v|e|]; [destruct (h_success (ms_h m))|destruct (h_error (ms_h m))|]; unfold ninv; cbn [emit mc_subs mset firstn skipn app].
    + apply G; [reflexivity..|nogot].
    + apply (G [ECalled 0 (CSuccess v)] []); [reflexivity..|nogot].
    + apply G; [reflexivity..|nogot].
    + apply (G [ECalled 0 (CError e)] []); [reflexivity..|nogot].
    + apply (G [ECalled 0 CCancel] []); [reflexivity..|nogot].
Qed.
Lemma ninv_finally c s g rest :
  minv c -> ninv c -> mc_stack c = IFinally s g :: rest -> ninv (do_finally s g rest c).
Proof.
  intros I N Hk.
  destruct (Nat.le_gt_cases 2 (List.length (mc_subs c))) as [L2|L2]; [apply ninv_many; now rewrite do_finally_len|].
  pose proof (I s) as Is.
  unfold do_finally. unfold ninv in N. destruct (mc_subs c) as [|m [|m2 subs]] eqn:Hs; [| |cbn in L2; lia].
  - exfalso. rewrite nth_nil in Is. destruct Is as [_ _ _ P _]. rewrite Hk in P. cbn in P. rewrite Nat.eqb_refl in P. discriminate.
  - destruct s as [|s].
    2:{ exfalso. cbn [nth_error] in Is. rewrite nth_nil in Is. destruct Is as [_ _ _ P _]. rewrite Hk in P. cbn in P. rewrite Nat.eqb_refl in P. discriminate. }
    cbn [nth_error] in *. destruct N as (A1 & A2 & A3 & A4 & A5 & A6 & A7).
    rewrite Hk in A2, A3, A4, A5.
    change (loops (IFinally 0 g :: rest)) with (S (loops rest)) in *. change (firing (IFinally 0 g :: rest)) with (firing rest) in *.
    cbn [stack_ok] in A5. cbn [Nat.eqb negb] in A2. rewrite orb_true_r, A5 in A2.
    assert (L : loops rest = 0%nat) by lia. rewrite A5 in A4.
    assert (G : forall ev l m', ms_closed m' = ms_closed m -> ms_signal m' = g -> registered ev = [] -> fired ev = [] -> (forall v e, ~ In (EGot v e) ev) ->
                one_inv (emit c [m'] ev (acts l ++ ILoop 0 g :: rest)) m').
    { intros ev l m' Hm' Hg R F' G'. unfold one_inv, emit. cbn [mc_subs mc_trace mc_stack mc_cur mc_callbacks].
      rewrite firing_app, firing_acts, loops_app, loops_acts, stack_ok_acts.
      change (loops (ILoop 0 g :: rest)) with (S (loops rest)). change (firing (ILoop 0 g :: rest)) with (firing rest).
      rewrite L, A5. cbn [Nat.add Nat.eqb negb stack_ok app]. rewrite orb_true_r, Hm'. repeat split; auto; try congruence.
      - unfold registered, fired in *. rewrite !flat_map_app, R, F', !app_nil_r. exact A2.
      - exfalso. destruct (A4 ltac:(assumption)). discriminate.
      - now apply fired_ok_plain.
      - now apply got_ok_plain. }
    destruct (h_finally (ms_h m)); unfold ninv; cbn [emit mc_subs mset firstn skipn app].
    + apply G; [reflexivity..|nogot].
    + apply (G [ESignal 0 g] []); [reflexivity..|nogot].
Qed.
Lemma ninv_step c i : minv c -> ninv c -> ninv (mstep source code c i).
Proof.
  intros I N. destruct (Nat.le_gt_cases 2 (List.length (mc_subs c))) as [L2|L2].
  { apply ninv_many. unfold mstep. destruct (mc_panicked c); [exact L2|]. destruct (mc_stack c) as [|it rest] eqn:Hk.
    - destruct (nth_error (mc_threads c) i); exact L2.
    - destruct it as [[s k|h|id fn| |o|k]|s g|s g|id fn g]; cbn [do_item].
      + now rewrite do_call_len.
      + cbn [mc_subs]. rewrite app_length. lia.
      + unfold do_notify. destruct (match mc_cur c with Some _ => _ | None => _ end) as [m|]; [destruct (ms_closed m)|]; exact L2.
      + destruct (match mc_cur c with Some _ => _ | None => _ end) as [m|]; [destruct (ms_closed m)|]; exact L2.
      + exact L2.
      + destruct (code k (mc_trace c) (mc_store c)) as [[st l]|]; exact L2.
      + now rewrite do_finally_len.
      + exact L2.
      + exact L2. }
  unfold mstep. destruct (mc_panicked c); [exact N|]. destruct (mc_stack c) as [|it rest] eqn:Hk.
  - destruct (nth_error (mc_threads c) i) as [t|]; [|exact N].
    unfold ninv, one_inv in *. cbn [mc_subs mc_trace mc_stack mc_cur mc_callbacks]. rewrite Hk in N.
    rewrite firing_acts, loops_acts. rewrite <- (app_nil_r (acts t)).
    destruct (mc_subs c) as [|m [|? ?]]; auto. rewrite stack_ok_acts. exact N.
  - destruct it as [[s k|h|id fn| |o|k]|s g|s g|id fn g]; cbn [do_item].
    + now apply ninv_call.
    + unfold ninv. cbn [mc_subs]. unfold ninv in N. destruct (mc_subs c) as [|m [|m2 subs]]; [|exact Logic.I|cbn in L2; lia].
      cbn [app List.length]. destruct N as (A1 & A2 & A3 & A4 & A5 & A6 & A7). rewrite Hk in A3, A4.
      change (loops rest = 0%nat) in A4. change (firing rest = []) in A3.
      unfold one_inv. cbn [mc_subs mc_trace mc_stack mc_cur mc_callbacks ms_closed ms_signal].
      rewrite firing_app, firing_acts, loops_app, loops_acts, stack_ok_acts, A2, A3, A4, A5. cbn. repeat split; auto.
      now apply stack_ok_nofire.
    + unfold do_notify. unfold ninv in N. destruct (mc_subs c) as [|m [|m2 subs]] eqn:Hs; [| |cbn in L2; lia].
      * destruct N as (A1 & A2 & A3 & A4 & A5 & A6 & A7). rewrite A1. unfold ninv. cbn [mc_subs mc_trace mc_stack mc_cur mc_callbacks].
        rewrite Hk in A3, A4. repeat split; auto.
        -- unfold fired in *. now rewrite flat_map_app, A2.
        -- unfold registered, ids in *. now rewrite flat_map_app, map_app, A5.
        -- now apply fired_ok_plain.
        -- apply got_ok_plain; [assumption|nogot].
      * destruct N as (A1 & A2 & A3 & A4 & A5 & A6 & A7). rewrite A1. cbn [nth_error]. rewrite Hk in A2, A3, A4, A5.
        change (loops (IAct (ANotify id fn) :: rest)) with (loops rest) in *. change (firing (IAct (ANotify id fn) :: rest)) with (firing rest) in *.
        cbn [stack_ok] in A5.
        destruct (ms_closed m) eqn:Cl; unfold ninv; cbn [emit mc_subs]; unfold one_inv; cbn [emit mc_subs mc_trace mc_stack mc_cur mc_callbacks]; rewrite Cl.
        -- change (loops (IFire id fn (ms_signal m) :: rest)) with (loops rest). change (firing (IFire id fn (ms_signal m) :: rest)) with (id :: firing rest).
           cbn [stack_ok]. repeat split; auto; try congruence.
           ++ unfold registered, fired in *. rewrite !flat_map_app. cbn [flat_map registered_of fired_of app].
              rewrite app_nil_r. eapply Permutation_trans; [apply Permutation_sym, Permutation_cons_append|].
              eapply Permutation_trans; [apply perm_skip, A2|]. cbn [app]. apply Permutation_middle.
           ++ now apply fired_ok_plain.
           ++ apply got_ok_plain; [assumption|nogot].
        -- cbn [negb orb] in *. repeat split; auto; try congruence; try now apply A4.
           ++ unfold registered, fired, ids in *. rewrite !flat_map_app, map_app. cbn [flat_map registered_of fired_of app map fst].
              rewrite app_nil_r, !app_assoc. apply Permutation_app_tail. rewrite <- app_assoc. exact A2.
           ++ now apply fired_ok_plain.
           ++ apply got_ok_plain; [assumption|nogot].
    + unfold ninv in N. destruct (mc_subs c) as [|m [|m2 subs]] eqn:Hs; [| |cbn in L2; lia].
      * destruct N as (A1 & A2 & A3 & A4 & A5 & A6 & A7). rewrite A1. unfold ninv. cbn [panic mc_subs mc_trace mc_stack mc_cur mc_callbacks]. rewrite Hs. repeat split; auto.
      * pose proof (I 0%nat) as I0. rewrite Hs in I0. cbn [nth_error] in I0.
        destruct N as (A1 & A2 & A3 & A4 & A5 & A6 & A7). rewrite A1. cbn [nth_error]. rewrite Hk in A2, A3, A4, A5.
        change (loops (IAct AGet :: rest)) with (loops rest) in *. change (firing (IAct AGet :: rest)) with (firing rest) in *. cbn [stack_ok] in A5.
        destruct (ms_closed m) eqn:Cl; unfold ninv; cbn [emit panic mc_subs].
        -- unfold one_inv; cbn [emit mc_subs mc_trace mc_stack mc_cur mc_callbacks]. rewrite Cl.
           repeat split; auto; try congruence.
           ++ unfold registered, fired, ids in *. rewrite !flat_map_app. cbn [flat_map registered_of fired_of app]. rewrite !app_nil_r. exact A2.
           ++ now apply fired_ok_plain.
           ++ intros v e Hin. apply in_app_iff in Hin as [Hin|[Hin|[]]].
              ** destruct (A7 v e Hin) as (k & X & Y). exists k. split; [|exact Y]. unfold calls in *. now rewrite flat_map_app, first_app, X.
              ** injection Hin as <- <-. destruct I0 as [B1 B2 B3 _ _ _ _]. rewrite Cl in B1.
                 destruct (first (calls 0 (mc_trace c))) as [k|] eqn:Ek; [|discriminate]. exists k.
                 unfold calls in *. rewrite flat_map_app, first_app, Ek. auto.
        -- rewrite Hs. unfold one_inv; cbn [panic mc_subs mc_trace mc_stack mc_cur mc_callbacks]. rewrite Cl, Hk. repeat split; auto; now apply A4.
    + unfold ninv in N |- *. cbn [emit mc_subs]. destruct (mc_subs c) as [|m [|m2 subs]] eqn:Hs; [| |exact Logic.I].
      * cbn [emit mc_subs mc_trace mc_stack mc_cur mc_callbacks]. destruct N as (A1 & A2 & A3 & A4 & A5 & A6 & A7). rewrite Hk in A3, A4. repeat split; auto.
        -- unfold fired in *. now rewrite flat_map_app, A2.
        -- unfold registered in *. now rewrite flat_map_app, A5, app_nil_r.
        -- now apply fired_ok_plain.
        -- apply got_ok_plain; [assumption|nogot].
      * eapply one_inv_plain with (ev := [EObs o]); eauto; try reflexivity; cbn [emit mc_stack]; rewrite ?Hk; try reflexivity; [nogot|auto].
    + destruct (code k (mc_trace c) (mc_store c)) as [[st l]|].
      * unfold ninv in N |- *. cbn [mc_subs]. destruct (mc_subs c) as [|m [|m2 subs]] eqn:Hs; [| |exact Logic.I].
        -- cbn [emit mc_subs mc_trace mc_stack mc_cur mc_callbacks]. rewrite firing_app, firing_acts, loops_app, loops_acts. rewrite Hk in N. exact N.
        -- eapply one_inv_plain with (ev := []); eauto; try reflexivity; cbn [emit mc_stack mc_trace];
             rewrite ?firing_app, ?firing_acts, ?loops_app, ?loops_acts, ?stack_ok_acts, ?Hk, ?app_nil_r; try reflexivity. auto.
      * unfold ninv in N |- *. cbn [panic mc_subs mc_trace mc_stack mc_cur mc_callbacks]. exact N.
    + now apply ninv_finally.
    + unfold ninv in N |- *. cbn [emit mc_subs]. destruct (mc_subs c) as [|m [|m2 subs]] eqn:Hs; [| |exact Logic.I].
      * destruct N as (A1 & A2 & A3 & A4 & A5 & A6 & A7). rewrite Hk in A4. discriminate.
      * destruct N as (A1 & A2 & A3 & A4 & A5 & A6 & A7). rewrite Hk in A2, A3, A4, A5.
        change (loops (ILoop s g :: rest)) with (S (loops rest)) in *. change (firing (ILoop s g :: rest)) with (firing rest) in *.
        cbn [stack_ok] in A5. destruct A5 as [-> F]. rewrite F in *. cbn [Nat.eqb negb] in A2. rewrite orb_true_r in A2.
        assert (L : loops rest = 0%nat) by lia.
        destruct (ms_closed m) eqn:Cl; [|destruct (A4 eq_refl); discriminate].
        unfold one_inv. cbn [emit mc_subs mc_trace mc_stack mc_cur mc_callbacks]. rewrite app_nil_r, firing_app, firing_fires, loops_app, loops_fires, stack_ok_fires, L, F, Cl.
        cbn [Nat.add Nat.eqb negb orb]. rewrite !app_nil_r. repeat split; auto; try congruence. now apply stack_ok_nofire.
    + unfold ninv in N |- *. cbn [emit mc_subs]. destruct (mc_subs c) as [|m [|m2 subs]] eqn:Hs; [| |exact Logic.I].
      * destruct N as (A1 & A2 & A3 & A4 & A5 & A6 & A7). rewrite Hk in A3. discriminate.
      * pose proof (I 0%nat) as I0. rewrite Hs in I0. cbn [nth_error] in I0.
        destruct N as (A1 & A2 & A3 & A4 & A5 & A6 & A7). rewrite Hk in A2, A3, A4, A5.
        change (loops (IFire id fn g :: rest)) with (loops rest) in *. change (firing (IFire id fn g :: rest)) with (id :: firing rest) in *.
        cbn [stack_ok] in A5. destruct A5 as [-> A5].
        unfold one_inv. cbn [emit mc_subs mc_trace mc_stack mc_cur mc_callbacks]. rewrite firing_app, firing_acts, loops_app, loops_acts, stack_ok_acts. cbn [Nat.add app].
        repeat split; auto.
        -- unfold registered, fired in *. rewrite !flat_map_app. cbn [flat_map registered_of fired_of app]. rewrite !app_nil_r, <- app_assoc. exact A2.
        -- now apply A4.
        -- destruct (A4 ltac:(assumption)); discriminate.
        -- apply fired_ok_snoc; [assumption|]. intros id' g' X. injection X as <- <-. apply I0.
        -- apply got_ok_plain; [assumption|nogot].
Qed.
Lemma ninv_init st threads : ninv (minit st threads).
Proof. unfold ninv. cbn. repeat split; auto; [intros t1 ? ? ? H; now destruct t1|intros ? ? []]. Qed.
Lemma ninv_run sched c : minv c -> ninv c -> ninv (mrun source code sched c).
Proof. revert c. induction sched; intros c I N; [exact N|]. cbn. apply IHsched; [now apply minv_step|now apply ninv_step]. Qed.
End Facts.

(** *** Handlers of a subscription never change; the first call never changes *)
Section Stable.
Context {V E O C St : Type}.
Variable source : nat -> list (mact V E O C).
Variable code : C -> list (mevent V E O) -> St -> option (St * list (mact V E O C)).
Notation conf := (mconf V E O C St).

Lemma mset_h (l : list (msub V E O C)) i m m' s x :
  nth_error l i = Some m -> ms_h m' = ms_h m -> nth_error l s = Some x -> exists y, nth_error (mset l i m') s = Some y /\ ms_h y = ms_h x.
Proof.
  intros Hi Hh Hs. rewrite nth_mset by (eapply nth_some_lt; eauto).
  destruct (Nat.eqb i s) eqn:Eis; [|eauto]. apply Nat.eqb_eq in Eis as ->. rewrite Hi in Hs. injection Hs as ->. eauto.
Qed.
Lemma step_h (c : conf) i s m :
  nth_error (mc_subs c) s = Some m -> exists m', nth_error (mc_subs (mstep source code c i)) s = Some m' /\ ms_h m' = ms_h m.
Proof.
  intros H. unfold mstep. destruct (mc_panicked c); [eauto|]. destruct (mc_stack c) as [|it rest].
  { destruct (nth_error (mc_threads c) i); eauto. }
  destruct it as [[j k|h|id fn| |o|k]|j g|j g|id fn g]; cbn [do_item].
  - unfold do_call. destruct (nth_error (mc_subs c) j) eqn:Ej; [|eauto]. destruct (ms_closed m0); [eauto|].
    destruct k; [destruct (h_success (ms_h m0))|destruct (h_error (ms_h m0))|]; cbn [emit mc_subs]; eapply mset_h; eauto.
  - cbn [mc_subs]. exists m. split; [|reflexivity]. rewrite nth_error_app1; [assumption|]. eapply nth_some_lt; eauto.
  - unfold do_notify. destruct (match mc_cur c with Some _ => _ | None => _ end) as [m0|]; [destruct (ms_closed m0)|]; eauto.
  - destruct (match mc_cur c with Some _ => _ | None => _ end) as [m0|]; [destruct (ms_closed m0)|]; eauto.
  - eauto.
  - destruct (code k (mc_trace c) (mc_store c)) as [[? ?]|]; eauto.
  - unfold do_finally. destruct (nth_error (mc_subs c) j) eqn:Ej; [|eauto].
    destruct (h_finally (ms_h m0)); cbn [emit mc_subs]; eapply mset_h; eauto.
  - eauto.
  - eauto.
Qed.
Lemma step_trace (c : conf) i : exists ev, mc_trace (mstep source code c i) = mc_trace c ++ ev.
Proof.
  assert (Z : exists ev, mc_trace c = mc_trace c ++ ev) by (exists []; now rewrite app_nil_r).
  unfold mstep. destruct (mc_panicked c); [exact Z|]. destruct (mc_stack c) as [|it rest].
  { destruct (nth_error (mc_threads c) i); exact Z. }
  destruct it as [[j k|h|id fn| |o|k]|j g|j g|id fn g]; cbn [do_item].
  - unfold do_call. destruct (nth_error (mc_subs c) j) eqn:Ej; [|cbn; eauto]. destruct (ms_closed m); [cbn; eauto|].
    destruct k; [destruct (h_success (ms_h m))|destruct (h_error (ms_h m))|]; cbn; eauto.
  - exact Z.
  - unfold do_notify. destruct (match mc_cur c with Some _ => _ | None => _ end) as [m0|]; [destruct (ms_closed m0)|]; cbn; eauto.
  - destruct (match mc_cur c with Some _ => _ | None => _ end) as [m0|]; [destruct (ms_closed m0)|]; cbn; eauto.
  - cbn. eauto.
  - destruct (code k (mc_trace c) (mc_store c)) as [[? ?]|]; exact Z.
  - unfold do_finally. destruct (nth_error (mc_subs c) j) eqn:Ej; [|cbn; eauto].
    destruct (h_finally (ms_h m)); cbn; eauto.
  - cbn; eauto.
  - cbn; eauto.
Qed.
Lemma step_first (c : conf) i s k :
  first (calls s (mc_trace c)) = Some k -> first (calls s (mc_trace (mstep source code c i))) = Some k.
Proof.
  intros H. destruct (step_trace c i) as [ev ->]. unfold calls in *. now rewrite flat_map_app, first_app, H.
Qed.
End Stable.
