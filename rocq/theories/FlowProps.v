(** C56-C57: flows. *)
From Verif Require Import Base BaseFacts FlowModel.

Lemma nth_combine_l {A B} i (l : list A) (l' : list B) x y : nth_error (combine l l') i = Some (x, y) -> nth_error l i = Some x.
Proof. revert l l'. induction i as [|i IH]; intros [|a l] [|b l'] H; cbn in *; try discriminate; [congruence|]. eapply IH; eauto. Qed.
Lemma skipn_S {A} (l : list A) i : skipn (S i) l = tl (skipn i l).
Proof. revert l. induction i as [|i IH]; intros [|x l]; auto. apply (IH l). Qed.
Section Flow.
Context {E : Type}.
Notation event := (levent E).
Notation conf := (lconf E).
Notation item := (litem E).
(** The steps started; the operations completed. *)
Definition run_of (ev : event) : list nat := match ev with LRan k => [k] | _ => [] end.
Definition runs (t : list event) := flat_map run_of t.
Definition done_of (ev : event) : list N := match ev with LDone o => [o] | _ => [] end.
Definition dones (t : list event) := flat_map done_of t.
Arguments runs : simpl never.
Arguments dones : simpl never.
(** A step failed, ended the flow, or had nothing to wait for. *)
Definition stop (ev : event) : Prop := match ev with LFailed _ _ | LEnded _ | LAwaits _ [] => True | _ => False end.
Definition stopped (t : list event) := Exists stop t.

Variable async : list event -> N -> list N.
Variable steps : list (step E).
(** An operation that never completes inside a step or inside [Async]. *)
Definition slow (o : N) : Prop :=
  (forall t o', ~ In o (async t o')) /\ (forall f t, In f steps -> ~ In o (sr_done (f t))).
(** Whenever a step waits for something, that includes a slow operation that is
    not yet complete. *)
Definition late (t : list event) : Prop :=
  forall t1 k ops t2, t = t1 ++ LAwaits k ops :: t2 -> ops <> [] -> exists o, In o ops /\ slow o /\ ~ In o (dones t1).
(** Steps start in order, the first at once and each other one when everything
    the previous step waits for is complete; none after a stop. *)
Definition in_order (t : list event) : Prop :=
  forall t1 k t2, t = t1 ++ LRan k :: t2 ->
    k = List.length (runs t1) /\ ~ stopped t1 /\
    match k with
    | 0%nat => True
    | S k' => exists ops, In (LAwaits k' ops) t1 /\ ops <> [] /\ forall o, In o ops -> In o (dones t1)
    end.

Notation all := (combine (seq 0 (List.length steps)) steps).
Definition check_of (i : item) : nat := match i with ICheck => 1 | _ => 0 end%nat.
Definition checks (l : list item) : nat := list_sum (map check_of l).
Definition todo_of (i : item) : list N := match i with IReg o | INotify o => [o] | _ => [] end.
Definition todo (l : list item) := flat_map todo_of l.
Arguments checks : simpl never.
Arguments todo : simpl never.
Definition isdone (i : item) : Prop := exists o, i = IDone o.
Definition quick (i : item) : Prop := exists o, i = IDone o /\ ~ slow o.
Definition inner (i : item) : Prop := quick i \/ i = ICheck \/ exists o, i = IReg o \/ i = INotify o.

Definition waits (c : conf) (j : nat) (g : list N) : Prop :=
  In (LAwaits j g) (l_trace c) /\ l_waiting c = List.length g /\ (stopped (l_trace c) -> g = []).
Inductive phase (c : conf) : Prop :=
| P0 j : l_stack c = [INext] -> l_regs c = [] -> l_steps c = skipn j all -> runs (l_trace c) = seq 0 j -> (j <= List.length steps)%nat -> l_ended c = false -> ~ stopped (l_trace c) ->
    match j with 0%nat => True | S k' => exists ops, In (LAwaits k' ops) (l_trace c) /\ ops <> [] /\ forall o, In o ops -> In o (dones (l_trace c)) end -> phase c
| P1 j r l : l_stack c = l ++ [IRet j r] -> Forall quick l -> l_regs c = [] -> l_steps c = skipn j all -> runs (l_trace c) = seq 0 (S j) -> (j < List.length steps)%nat ->
    l_ended c = sr_end r -> ~ stopped (l_trace c) -> l_completed c = 0%nat -> phase c
| P2 j g l : l_stack c = l ++ [IAdvance] -> Forall inner l -> l_steps c = skipn j all -> runs (l_trace c) = seq 0 (S j) -> (j < List.length steps)%nat ->
    l_ended c = false -> waits c j g ->
    (l_completed c + checks l + List.length (l_regs c) + List.length (todo l) = List.length g)%nat ->
    (forall o, In o g -> In o (dones (l_trace c)) \/ In o (l_regs c) \/ In o (todo l)) ->
    (g <> [] -> exists o, slow o /\ ~ In o (dones (l_trace c)) /\ (In o (l_regs c) \/ In o (todo l))) ->
    (forall o, In o (l_regs c) \/ In o (todo l) -> In o g) -> phase c
| P3 j g : (exists o, l_stack c = [IDone o]) \/ (exists n, l_stack c = repeat ICheck n) -> l_steps c = skipn (S j) all -> runs (l_trace c) = seq 0 (S j) -> (j < List.length steps)%nat ->
    l_ended c = false -> waits c j g ->
    (l_completed c + checks (l_stack c) + List.length (l_regs c) = List.length g)%nat -> (l_completed c < List.length g \/ g = [])%nat ->
    (forall o, In o g -> In o (dones (l_trace c)) \/ In o (l_regs c)) -> (forall o, In o (l_regs c) -> In o g) -> phase c
| P4 : Forall isdone (l_stack c) -> l_regs c = [] -> (stopped (l_trace c) \/ runs (l_trace c) = seq 0 (List.length steps)) -> phase c.
Record flinv (c : conf) : Prop := {
  f_pan : l_panicked c = false;
  f_done : forall o, In o (l_done c) <-> In o (dones (l_trace c));
  f_pend : forall o, In o (l_regs c) -> ~ In o (l_done c);
  f_order : in_order (l_trace c);
  f_phase : phase c }.

Lemma mem_In o l : mem o l = true <-> In o l.
Proof. unfold mem. rewrite existsb_exists. split; [intros (x & H & X); apply N.eqb_eq in X; now subst|intros H; exists o; rewrite N.eqb_refl; auto]. Qed.
Lemma mem_nIn o l : mem o l = false <-> ~ In o l.
Proof. rewrite <- mem_In. destruct (mem o l); split; congruence. Qed.
Lemma runs_app a b : runs (a ++ b) = runs a ++ runs b. Proof. apply flat_map_app. Qed.
Lemma dones_app a b : dones (a ++ b) = dones a ++ dones b. Proof. apply flat_map_app. Qed.
Lemma todo_app a b : todo (a ++ b) = todo a ++ todo b. Proof. apply flat_map_app. Qed.
Lemma checks_app a b : checks (a ++ b) = (checks a + checks b)%nat. Proof. unfold checks. now rewrite map_app, list_sum_app. Qed.
Lemma checks_repeat n : checks (repeat ICheck n) = n.
Proof. unfold checks. induction n as [|n IH]; cbn; [reflexivity|]. now f_equal. Qed.
Lemma todo_repeat n : todo (repeat ICheck n) = []. Proof. induction n; auto. Qed.
Lemma todo_done l : todo (map IDone l) = []. Proof. induction l; auto. Qed.
Lemma checks_done l : checks (map IDone l) = 0%nat. Proof. induction l; auto. Qed.
Lemma todo_reg l : todo (map IReg l) = l. Proof. unfold todo. induction l; cbn; f_equal; auto. Qed.
Lemma checks_reg l : checks (map IReg l) = 0%nat. Proof. induction l; auto. Qed.
Lemma split_len (l : list N) o : List.length l = (List.length (filter (fun o' => negb (N.eqb o' o)) l) + List.length (filter (fun o' => N.eqb o' o) l))%nat.
Proof. induction l as [|x l IH]; cbn; [reflexivity|]. destruct (N.eqb x o); cbn; lia. Qed.

Lemma snoc_split {A} (t t1 t2 : list A) x y : t ++ [x] = t1 ++ y :: t2 -> (t2 = [] /\ t1 = t /\ y = x) \/ exists t2', t2 = t2' ++ [x] /\ t = t1 ++ y :: t2'.
Proof.
  destruct t2 as [|z t2] using rev_ind; intros H.
  - apply app_inj_tail in H as [-> ->]. auto.
  - right. exists t2. rewrite app_comm_cons, app_assoc in H. apply app_inj_tail in H as [-> ->]. auto.
Qed.
Lemma order_other t ev : in_order t -> run_of ev = [] -> in_order (t ++ [ev]).
Proof. intros H1 H2 t1 k t2 H. apply snoc_split in H as [(_ & _ & <-)|(t2' & _ & H)]; [discriminate|eauto]. Qed.
Lemma order_nil : in_order []. Proof. intros t1 k t2 H. now destruct t1. Qed.
Lemma late_app t ev : late (t ++ ev) -> late t.
Proof. intros H t1 k ops t2 ->. apply (H t1 k ops (t2 ++ ev)). now rewrite <- app_assoc. Qed.

Lemma steps_skipn j k f rest : skipn j all = (k, f) :: rest -> k = j /\ In f steps /\ (j < List.length steps)%nat /\ rest = skipn (S j) all.
Proof.
  intros H. assert (X : nth_error all j = Some (k, f)).
  { rewrite <- (firstn_skipn j all), nth_error_app2; rewrite firstn_length.
    - assert (Y : (j < List.length all)%nat). { destruct (Nat.lt_ge_cases j (List.length all)) as [Y|Y]; [exact Y|]. rewrite skipn_all2 in H by assumption. discriminate. }
      rewrite Nat.min_l by lia. rewrite Nat.sub_diag, H. reflexivity.
    - lia. }
  assert (L : (j < List.length steps)%nat).
  { assert (Y : (j < List.length all)%nat) by (apply nth_error_Some; congruence). rewrite combine_length, seq_length in Y. lia. }
  split; [|split; [|split; [exact L|]]].
  - assert (Y : nth_error (seq 0 (List.length steps)) j = Some k).
    { exact (nth_combine_l _ _ _ _ _ X). }
    rewrite (nth_error_nth' _ 0%nat) in Y by now rewrite seq_length. rewrite seq_nth in Y by exact L. cbn in Y. congruence.
  - apply nth_error_In in X. now apply in_combine_r in X.
  - now rewrite (skipn_S all j), H.
Qed.

Lemma flinv_init : flinv (linit steps).
Proof.
  constructor; cbn; try tauto. { apply order_nil. }
  apply (P0 _ 0); cbn; auto with arith. intros X. inversion X.
Qed.
Lemma waits_app c c' j g ev : waits c j g -> l_trace c' = l_trace c ++ ev -> l_waiting c' = l_waiting c -> ~ stopped ev -> waits c' j g.
Proof.
  intros (W1 & W2 & W3) T W H. split; [|split].
  - rewrite T. apply in_app_iff. auto.
  - congruence.
  - rewrite T. intros X. apply Exists_app in X as [X|X]; [auto|contradiction].
Qed.
Lemma seq_snoc n : seq 0 (S n) = seq 0 n ++ [n]. Proof. now rewrite seq_S. Qed.
Lemma nstop_done o : ~ stopped [LDone o]. Proof. intros X. inversion X; subst; [contradiction|]. inversion H0. Qed.
Lemma stopped_done t o : stopped (t ++ [LDone o]) <-> stopped t.
Proof. unfold stopped. rewrite Exists_app. split; [intros [X|X]; [exact X|now apply nstop_done in X]|auto]. Qed.
Lemma in_filter_neq o x l : In x (filter (fun o' => negb (N.eqb o' o)) l) <-> In x l /\ x <> o.
Proof. rewrite filter_In. destruct (N.eqb_spec x o); cbn; intuition congruence. Qed.
Lemma runs_done t o : runs (t ++ [LDone o]) = runs t. Proof. rewrite runs_app. unfold runs at 2. cbn. now rewrite app_nil_r. Qed.
Lemma dones_done t o : dones (t ++ [LDone o]) = dones t ++ [o]. Proof. now rewrite dones_app. Qed.

(** A completion. *)
Lemma flinv_done c o rest : flinv c -> l_stack c = IDone o :: rest ->  flinv (do_done o rest c).
Proof.
  intros [I1 I2 I3 I4 I5] Hs. unfold do_done. destruct (mem o (l_done c)) eqn:Em.
  - constructor; cbn; rewrite ?app_nil_r; auto. destruct I5 as [j A|j r l A A1|j g l A A1|j g A|A]; rewrite Hs in A.
    + discriminate.
    + destruct l as [|i l]; [discriminate|]. injection A as <- ->. inversion A1; subst. apply (P1 _ j r l); cbn; rewrite ?app_nil_r; auto.
    + destruct l as [|i l]; [discriminate|]. injection A as <- ->. inversion A1; subst. apply (P2 _ j g l); cbn; rewrite ?app_nil_r; auto.
      apply (waits_app c _ _ _ []); cbn; auto. intros X; inversion X.
    + destruct A as [[o' A]|[[|n] A]]; try discriminate. injection A as -> ->. rewrite Hs in *.
      apply (P3 _ j g); cbn; rewrite ?app_nil_r; auto. { right. exists 0%nat. reflexivity. }
      apply (waits_app c _ _ _ []); cbn; auto. intros X; inversion X.
    + inversion A; subst. apply P4; cbn; rewrite ?app_nil_r; auto.
  - apply mem_nIn in Em. pose proof (split_len (l_regs c) o) as SL. constructor; cbn.
    + exact I1.
    + intros x. rewrite dones_done, in_app_iff, <- I2. cbn. intuition.
    + intros x Hx [->|X]; apply in_filter_neq in Hx as [Hx Hn]; [congruence|]. now apply (I3 x).
    + now apply order_other.
    + destruct I5 as [j A|j r l A A1 A2|j g l A A1 A2 A3 A4 A5 A6 A7 A8 A9 AX|j g A A1 A2 A3 A4 A5 A6 A7 A8 AY|A A1 A2]; rewrite Hs in A.
      * discriminate.
      * destruct l as [|i l]; [discriminate|]. injection A as <- ->. inversion A1; subst. rewrite A2.
        apply (P1 _ j r l); cbn; rewrite ?runs_done, ?A2; auto. now rewrite stopped_done.
      * destruct l as [|i l]; [discriminate|]. injection A as <- ->. inversion A1 as [|? ? Q1 Q2]; subst. change (todo (IDone o :: l)) with (todo l) in A7, A8, A9, AX. change (checks (IDone o :: l)) with (checks l) in A7.
        assert (NS : ~ slow o). { destruct Q1 as [(x & X & Y)|[X|(x & [X|X])]]; try discriminate. now injection X as ->. }
        apply (P2 _ j g (repeat ICheck (List.length (filter (fun o' => N.eqb o' o) (l_regs c))) ++ l)); cbn; rewrite ?runs_done; auto.
        -- now rewrite app_assoc.
        -- apply Forall_app. split; [|exact Q2]. apply Forall_forall. intros x Hx. apply repeat_spec in Hx as ->. right. now left.
        -- apply (waits_app c _ _ _ [LDone o]); cbn; auto. apply nstop_done.
        -- rewrite checks_app, checks_repeat, todo_app, todo_repeat. cbn [app]. lia.
        -- intros x Hx. rewrite dones_done, in_filter_neq, todo_app, todo_repeat, in_app_iff. cbn. destruct (N.eq_dec x o); [subst; auto|]. destruct (A8 x Hx) as [X|[X|X]]; auto.
        -- intros Hg. destruct (A9 Hg) as (x & X1 & X2 & X3). exists x. rewrite dones_done, in_filter_neq, todo_app, todo_repeat, in_app_iff. cbn.
           assert (x <> o) by congruence. split; [exact X1|]. split; [intuition congruence|]. intuition.
        -- intros x. rewrite in_filter_neq, todo_app, todo_repeat. cbn. intros [[X _]|X]; auto.
      * destruct A as [[o' A]|[[|n] A]]; try discriminate. injection A as -> ->. rewrite Hs in *. change (checks [IDone o']) with 0%nat in A6.
        apply (P3 _ j g); cbn; rewrite ?runs_done, ?app_nil_r; auto.
        -- right. eauto.
        -- apply (waits_app c _ _ _ [LDone o']); cbn; auto. apply nstop_done.
        -- rewrite checks_repeat. lia.
        -- intros x Hx. rewrite dones_done, in_filter_neq, in_app_iff. cbn. destruct (N.eq_dec x o'); [subst; auto|]. destruct (A8 x Hx) as [X|X]; auto.
        -- intros x X. apply in_filter_neq in X as [X _]. auto.
      * inversion A; subst. rewrite A1. apply P4; cbn; auto. rewrite stopped_done, runs_done. auto.
Qed.
Lemma flinv_step c o : flinv c -> late (l_trace (lstep async c o)) -> flinv (lstep async c o).
Proof.
  intros I L. destruct (l_stack c) as [|i rest] eqn:Hs.
  - unfold lstep in *. rewrite (f_pan c I), Hs in *. clear L. destruct I as [I1 I2 I3 I4 I5]. constructor; cbn; rewrite ?app_nil_r; auto.
    destruct I5 as [j A|j r l A A1|j g l A A1|j g A|A]; rewrite Hs in A.
    + discriminate.
    + now destruct l.
    + now destruct l.
    + destruct A as [[o' A]|[[|n] A]]; try discriminate. rewrite Hs in *.
      apply (P3 _ j g); cbn; rewrite ?app_nil_r; eauto.
      apply (waits_app c _ _ _ []); cbn; auto. intros X; inversion X.
    + apply P4; cbn; rewrite ?app_nil_r; auto. constructor; auto. now exists o.
  - unfold lstep in *. rewrite (f_pan c I), Hs in *. destruct i as [|o'|k r|o'|o'| |].
    + (* next *)
      clear L. destruct I as [I1 I2 I3 I4 I5]. unfold do_next.
      destruct I5 as [j A A1 A2 A3 A4 A5 A6 A7|j r l A A1|j g l A A1|j g A|A]; rewrite Hs in A.
      * injection A as ->. destruct (l_steps c) as [|[k f] ss] eqn:Est.
        -- constructor; cbn; rewrite ?app_nil_r; auto. apply P4; cbn; rewrite ?app_nil_r; auto. right.
           assert (X : (List.length all <= j)%nat).
           { destruct (Nat.le_gt_cases (List.length all) j) as [X|X]; [exact X|]. exfalso. symmetry in A2. apply (f_equal (@List.length _)) in A2. rewrite skipn_length in A2. cbn in A2. lia. }
           rewrite combine_length, seq_length in X. rewrite A3. f_equal. lia.
        -- symmetry in A2. apply steps_skipn in A2 as A2'. destruct A2' as (-> & Hf & Hj & _).
           constructor; cbn; auto.
           ++ intros x. rewrite dones_app. cbn. rewrite app_nil_r. apply I2.
           ++ intros t1 k t2 Ht. apply snoc_split in Ht as [(-> & -> & Hk)|(t2' & _ & Ht)]; [|eauto]. injection Hk as ->. rewrite A3, seq_length. auto.
           ++ apply (P1 _ j (f (l_trace c)) (map IDone (sr_done (f (l_trace c))))); cbn; rewrite ?Est; auto.
              ** apply Forall_forall. intros x Hx. apply in_map_iff in Hx as (y & <- & Hy). exists y. split; [reflexivity|]. intros [_ S2]. now apply (S2 f (l_trace c)).
              ** now rewrite runs_app, A3, <- seq_snoc.
              ** now rewrite A5.
              ** intros X. apply Exists_app in X as [X|X]; [contradiction|]. inversion X; subst; [contradiction|]. inversion H0.
      * destruct l as [|i l]; [discriminate|]. injection A as <- ->. inversion A1 as [|? ? Q1 Q2]; subst. destruct Q1 as (? & ? & _). discriminate.
      * destruct l as [|i l]; [discriminate|]. injection A as <- ->. inversion A1 as [|? ? Q1 Q2]; subst. destruct Q1 as [(x & X & Y)|[X|(x & [X|X])]]; discriminate.
      * destruct A as [[? A]|[[|n] A]]; discriminate.
      * inversion A as [|? ? [? Q1] Q2]; subst. discriminate.
    + now apply flinv_done.
    + (* return *)
      destruct I as [I1 I2 I3 I4 I5]. unfold do_ret in *.
      destruct I5 as [j A A1 A2 A3 A4 A5 A6 A7|j r0 l A A1 A2 A3 A4 A5 A6 A7 A8|j g l A A1|j g A|A]; rewrite Hs in A.
      * discriminate.
      * assert (l = [] /\ k = j /\ r = r0 /\ rest = []) as (-> & -> & -> & ->).
        { destruct l as [|i l]; [injection A; auto|]. injection A as <- ->. inversion A1 as [|? ? (? & ? & _) Q2]; subst. discriminate. }
        destruct (sr_err r0) as [e|].
        -- constructor; cbn; auto.
           ++ intros x. rewrite dones_app. cbn. rewrite app_nil_r. apply I2.
           ++ now apply order_other.
           ++ apply P4; cbn; auto. left. apply Exists_app. right. now constructor.
        -- destruct (l_ended c) eqn:Een.
           ++ constructor; cbn; auto.
              ** intros x. rewrite dones_app. cbn. rewrite app_nil_r. apply I2.
              ** now apply order_other.
              ** apply P4; cbn; auto. left. apply Exists_app. right. now constructor.
           ++ constructor; cbn; auto.
              ** intros x. rewrite dones_app. cbn. rewrite app_nil_r. apply I2.
              ** now apply order_other.
              ** apply (P2 _ j (sr_group r0) (map IReg (sr_group r0))); cbn; auto.
                 --- apply Forall_forall. intros x Hx. apply in_map_iff in Hx as (y & <- & Hy). right. right. eauto.
                 --- rewrite runs_app, A4. cbn. now rewrite app_nil_r.
                 --- split; [apply in_app_iff; cbn; auto|]. split; [reflexivity|]. intros X. apply Exists_app in X as [X|X]; [contradiction|]. inversion X as [? ? Y|? ? Y]; subst; [|inversion Y]. cbn in Y. now destruct (sr_group r0).
                 --- rewrite A8, A2, checks_reg, todo_reg. reflexivity.
                 --- intros x Hx. rewrite todo_reg. auto.
                 --- intros Hg. cbn in L. destruct (L (l_trace c) j (sr_group r0) [] eq_refl Hg) as (x & X1 & X2 & X3). exists x. rewrite dones_app. cbn. rewrite app_nil_r, todo_reg. auto.
                 --- intros x. rewrite A2, todo_reg. now intros [[]|X].
      * destruct l as [|i l]; [discriminate|]. injection A as <- ->. inversion A1 as [|? ? Q1 Q2]; subst. destruct Q1 as [(x & X & Y)|[X|(x & [X|X])]]; discriminate.
      * destruct A as [[? A]|[[|n] A]]; discriminate.
      * inversion A as [|? ? [? Q1] Q2]; subst. discriminate.
    + (* loop body *)
      clear L. destruct I as [I1 I2 I3 I4 I5]. constructor; cbn; rewrite ?app_nil_r; auto.
      destruct I5 as [j A A1 A2 A3 A4 A5 A6 A7|j r0 l A A1 A2 A3 A4 A5 A6 A7 A8|j g l A A1 A2 A3 A4 A5 A6 A7 A8 A9 AX|j g A|A]; rewrite Hs in A.
      * discriminate.
      * destruct l as [|i l]; [discriminate|]. injection A as <- ->. inversion A1 as [|? ? (? & ? & _) Q2]; subst. discriminate.
      * destruct l as [|i l]; [discriminate|]. injection A as <- ->. inversion A1 as [|? ? Q1 Q2]; subst.
        apply (P2 _ j g (map IDone (async (l_trace c) o') ++ INotify o' :: l)); cbn; rewrite ?app_nil_r; auto.
        -- now rewrite <- app_assoc.
        -- apply Forall_app. split; [|constructor; [right; right; eauto|exact Q2]]. apply Forall_forall. intros x Hx. apply in_map_iff in Hx as (y & <- & Hy). left. exists y. split; [reflexivity|]. intros [S1 _]. now apply (S1 (l_trace c) o').
        -- apply (waits_app c _ _ _ []); cbn; auto. intros X; inversion X.
        -- rewrite checks_app, checks_done, todo_app, todo_done. exact A7.
        -- rewrite todo_app, todo_done. exact A8.
        -- rewrite todo_app, todo_done. exact A9.
        -- rewrite todo_app, todo_done. exact AX.
      * destruct A as [[? A]|[[|n] A]]; discriminate.
      * inversion A as [|? ? [? Q1] Q2]; subst. discriminate.
    + (* notify *)
      clear L. destruct I as [I1 I2 I3 I4 I5]. unfold do_notify.
      destruct I5 as [j A A1 A2 A3 A4 A5 A6 A7|j r0 l A A1 A2 A3 A4 A5 A6 A7 A8|j g l A A1 A2 A3 A4 A5 A6 A7 A8 A9 AX|j g A|A]; rewrite Hs in A.
      * discriminate.
      * destruct l as [|i l]; [discriminate|]. injection A as <- ->. inversion A1 as [|? ? (? & ? & _) Q2]; subst. discriminate.
      * destruct l as [|i l]; [discriminate|]. injection A as <- ->. inversion A1 as [|? ? Q1 Q2]; subst. change (todo (INotify o' :: l)) with (o' :: todo l) in A7, A8, A9, AX. change (checks (INotify o' :: l)) with (checks l) in A7. cbn [In List.length] in A7, A8, A9, AX.
        destruct (mem o' (l_done c)) eqn:Em.
        -- apply mem_In in Em as Em'. apply I2 in Em'. constructor; cbn; rewrite ?app_nil_r; auto.
           apply (P2 _ j g (ICheck :: l)); cbn; rewrite ?app_nil_r; auto.
           ++ constructor; [right; now left|exact Q2].
           ++ apply (waits_app c _ _ _ []); cbn; auto. intros X; inversion X.
           ++ change (todo (ICheck :: l)) with (todo l). change (checks (ICheck :: l)) with (S (checks l)). lia.
           ++ intros x Hx. destruct (A8 x Hx) as [X|[X|[X|X]]]; subst; auto.
           ++ intros Hg. destruct (A9 Hg) as (x & X1 & X2 & [X3|[X3|X3]]); [exists x; auto|subst; contradiction|exists x; auto].
           ++ change (todo (ICheck :: l)) with (todo l). intros x X. apply AX. tauto.
        -- apply mem_nIn in Em. constructor; cbn; auto.
           ++ intros x Hx. apply in_app_iff in Hx as [Hx|[<-|[]]]; auto.
           ++ apply (P2 _ j g l); cbn; auto.
              ** rewrite app_length. cbn. lia.
              ** intros x Hx. rewrite in_app_iff. cbn. destruct (A8 x Hx) as [X|[X|[X|X]]]; subst; auto.
              ** intros Hg. destruct (A9 Hg) as (x & X1 & X2 & X3). exists x. rewrite in_app_iff. cbn. tauto.
              ** intros x. rewrite in_app_iff. cbn. intros X. apply AX. tauto.
      * destruct A as [[? A]|[[|n] A]]; discriminate.
      * inversion A as [|? ? [? Q1] Q2]; subst. discriminate.
    + (* check *)
      clear L. destruct I as [I1 I2 I3 I4 I5]. unfold do_check.
      destruct I5 as [j A A1 A2 A3 A4 A5 A6 A7|j r0 l A A1 A2 A3 A4 A5 A6 A7 A8|j g l A A1 A2 A3 A4 A5 A6 A7 A8 A9 AX|j g A A1 A2 A3 A4 A5 A6 A7 A8 AY|A]; rewrite Hs in A.
      * discriminate.
      * destruct l as [|i l]; [discriminate|]. injection A as <- ->. inversion A1 as [|? ? (? & ? & _) Q2]; subst. discriminate.
      * destruct l as [|i l]; [discriminate|]. injection A as <- ->. inversion A1 as [|? ? Q1 Q2]; subst. change (todo (ICheck :: l)) with (todo l) in A7, A8, A9, AX.
        change (checks (ICheck :: l)) with (S (checks l)) in A7. destruct A6 as (W1 & W2 & W3).
        assert (G : g <> []) by (intros ->; cbn in A7; lia).
        assert (P : (1 <= List.length (l_regs c) + List.length (todo l))%nat).
        { destruct (A9 G) as (x & _ & _ & [X|X]); [destruct (l_regs c)|destruct (todo l)]; try destruct X; cbn; lia. }
        destruct (Nat.leb_spec (l_waiting c) (S (l_completed c))); [lia|].
        constructor; cbn; auto. apply (P2 _ j g l); cbn; auto. { split; [|split]; auto. } lia.
      * destruct A as [[? A]|[[|n] A]]; try discriminate. injection A as ->. rewrite Hs in A6. change (ICheck :: repeat ICheck n) with (repeat (@ICheck E) (S n)) in A6. rewrite checks_repeat in A6.
        destruct A5 as (W1 & W2 & W3). rewrite W2.
        destruct (Nat.leb_spec (List.length g) (S (l_completed c))) as [Q|Q].
        -- assert (n = 0%nat /\ l_regs c = []) as [-> R]. { destruct (l_regs c); cbn in A6; [|lia]. split; [lia|reflexivity]. }
           cbn [repeat]. constructor; cbn; auto.
           apply (P0 _ (S j)); cbn; auto.
           ++ intros X. apply W3 in X as ->. cbn in A6. lia.
           ++ exists g. split; [exact W1|]. split; [intros ->; cbn in A6; lia|]. intros x Hx. destruct (A8 x Hx) as [X|X]; [exact X|]. rewrite R in X. destruct X.
        -- constructor; cbn; auto. apply (P3 _ j g); cbn; auto. { eauto. } { split; auto. } { rewrite checks_repeat. lia. }
      * inversion A as [|? ? [? Q1] Q2]; subst. discriminate.
    + (* advance *)
      clear L. destruct I as [I1 I2 I3 I4 I5]. unfold do_advance.
      destruct I5 as [j A A1 A2 A3 A4 A5 A6 A7|j r0 l A A1 A2 A3 A4 A5 A6 A7 A8|j g l A A1 A2 A3 A4 A5 A6 A7 A8 A9 AX|j g A|A]; rewrite Hs in A.
      * discriminate.
      * destruct l as [|i l]; [discriminate|]. injection A as <- ->. inversion A1 as [|? ? (? & ? & _) Q2]; subst. discriminate.
      * assert (l = [] /\ rest = []) as [-> ->].
        { destruct l as [|i l]; [injection A; auto|]. injection A as <- ->. inversion A1 as [|? ? Q1 Q2]; subst. destruct Q1 as [(x & X & Y)|[X|(x & [X|X])]]; discriminate. }
        destruct (l_steps c) as [|[k f] ss] eqn:Est.
        { exfalso. symmetry in A2. apply (f_equal (@List.length _)) in A2. rewrite skipn_length, combine_length, seq_length in A2. cbn in A2. lia. }
        symmetry in A2. apply steps_skipn in A2 as (-> & _ & _ & ->).
        constructor; cbn; auto. change (todo []) with (@nil N) in *. change (checks []) with 0%nat in A7. cbn in A7. apply (P3 _ j g); cbn; auto.
        -- right. now exists 0%nat.
        -- change (checks []) with 0%nat. lia.
        -- destruct g as [|x g]; [auto|]. left. destruct A9 as (y & _ & _ & [X|[]]); [discriminate|]. destruct (l_regs c); [destruct X|]. cbn in *. lia.
        -- intros x Hx. destruct (A8 x Hx) as [X|[X|[]]]; auto.
      * destruct A as [[? A]|[[|n] A]]; discriminate.
      * inversion A as [|? ? [? Q1] Q2]; subst. discriminate.
Qed.
Lemma lstep_trace c o : exists ev, l_trace (lstep async c o) = l_trace c ++ ev.
Proof.
  assert (N0 : exists ev, l_trace c = l_trace c ++ ev) by (exists []; now rewrite app_nil_r).
  unfold lstep. destruct (l_panicked c); [exact N0|]. destruct (l_stack c) as [|i rest]; [now exists []|].
  destruct i; unfold do_next, do_done, do_ret, do_notify, do_check, do_advance.
  - destruct (l_steps c) as [|[k f] ss]; cbn; eauto.
  - destruct (mem o0 (l_done c)); cbn; eauto.
  - destruct (sr_err r); [cbn; eauto|]. destruct (l_ended c); cbn; eauto.
  - cbn; eauto.
  - destruct (mem o0 (l_done c)); cbn; eauto.
  - exact N0.
  - destruct (l_steps c); exact N0.
Qed.
Lemma lrun_trace sched c : exists ev, l_trace (lrun async sched c) = l_trace c ++ ev.
Proof.
  revert c. induction sched as [|o sched IH]; intros c; [exists []; now rewrite app_nil_r|].
  change (lrun async (o :: sched) c) with (lrun async sched (lstep async c o)).
  destruct (IH (lstep async c o)) as [ev ->], (lstep_trace c o) as [ev' ->]. rewrite <- app_assoc. eauto.
Qed.
Lemma flinv_run sched : forall c, flinv c -> late (l_trace (lrun async sched c)) -> flinv (lrun async sched c).
Proof.
  induction sched as [|o sched IH]; intros c I L; [exact I|].
  change (lrun async (o :: sched) c) with (lrun async sched (lstep async c o)) in *.
  apply IH; [|exact L]. apply flinv_step; [exact I|]. destruct (lrun_trace sched (lstep async c o)) as [ev Hev]. rewrite Hev in L. now apply late_app in L.
Qed.
End Flow.
Arguments late {E}.
Arguments runs {E} : simpl never.
Arguments dones {E} : simpl never.
Arguments slow {E}.

(** ** C56.  Steps run in order, each started when everything awaited by the one
    before is complete, none after a failure, an [End] or a step that waits for
    nothing. *)
Theorem C56_steps_in_order :
  forall E async (steps : list (step E)) sched,
    let c := lrun async sched (linit steps) in
    late async steps (l_trace c) ->
    in_order (l_trace c) /\ runs (l_trace c) = seq 0 (List.length (runs (l_trace c))) /\ l_panicked c = false.
Proof.
  intros E async steps sched c L. destruct (flinv_run async steps sched (linit steps) (flinv_init async steps) L) as [I1 _ _ I4 _]. fold c in I1, I4.
  split; [exact I4|]. split; [|exact I1]. revert I4. generalize (l_trace c). clear. intros t. induction t as [|ev t IH] using rev_ind; intros I4; [reflexivity|].
  assert (I4' : in_order t). { intros t1 k t2 ->. apply (I4 t1 k (t2 ++ [ev])). now rewrite <- app_assoc. }
  specialize (IH I4'). rewrite runs_app. destruct ev; try (unfold runs at 2 4; cbn; rewrite app_nil_r; exact IH).
  destruct (I4 t k [] eq_refl) as [-> _]. change (runs [LRan (Datatypes.length (runs t))]) with [List.length (runs t)].
  rewrite app_length. cbn [List.length]. rewrite Nat.add_1_r, seq_snoc, <- IH. reflexivity.
Qed.
(** And no step is forgotten: when no call is in progress, all steps have run,
    or the flow has stopped, or something awaited by the last step is pending. *)
Theorem C56_no_step_lost :
  forall E async (steps : list (step E)) sched,
    let c := lrun async sched (linit steps) in
    late async steps (l_trace c) -> l_stack c = [] ->
    stopped (l_trace c) \/ runs (l_trace c) = seq 0 (List.length steps) \/
    exists k ops o, runs (l_trace c) = seq 0 (S k) /\ In (LAwaits k ops) (l_trace c) /\ In o ops /\ ~ In o (dones (l_trace c)).
Proof.
  intros E async steps sched c L Hk. destruct (flinv_run async steps sched (linit steps) (flinv_init async steps) L) as [_ I2 I3 _ I5]. fold c in I2, I3, I5.
  destruct I5 as [j A|j r l A A1|j g l A A1|j g A A1 A2 A3 A4 A5 A6 A7 A8 AY|A A1 A2]; rewrite Hk in *.
  - discriminate.
  - now destruct l.
  - now destruct l.
  - destruct A5 as (W1 & W2 & W3). change (checks []) with 0%nat in A6. destruct A7 as [A7|A7].
    + right. right. destruct (l_regs c) as [|o os] eqn:Er; [cbn in A6; lia|]. exists j, g.
      exists o. split; [exact A2|]. split; [exact W1|]. split; [apply AY; now left|]. rewrite <- I2. apply I3. now left.
    + left. apply Exists_exists. exists (LAwaits j g). split; [exact W1|]. now rewrite A7.
  - tauto.
Qed.

(** Step 0 waits for operations 1 and 2, the second of which completes at once;
    step 1 for 3; step 2 ends the flow. *)
Definition c56_steps : list (step N) :=
  [fun _ => {| sr_done := []; sr_end := false; sr_err := None; sr_group := [1; 2] |};
   fun _ => {| sr_done := []; sr_end := false; sr_err := None; sr_group := [3] |};
   fun _ => {| sr_done := []; sr_end := true; sr_err := None; sr_group := [] |}]%N.
Definition c56_async (_ : list (levent N)) (o : N) : list N := if (o =? 2)%N then [2%N] else [].
Definition c56_sched : list N := (repeat 9 9 ++ [1] ++ repeat 9 6 ++ [9; 9; 9; 3] ++ repeat 9 8)%N.
Example C56_example :
  let c := lrun c56_async c56_sched (linit c56_steps) in
  late c56_async c56_steps (l_trace c) /\ l_stack c = [] /\
  l_trace c = [LRan 0; LAwaits 0 [1; 2]; LDone 2; LDone 1; LRan 1; LAwaits 1 [3]; LDone 9; LDone 3; LRan 2; LEnded 2]%N.
Proof.
  cbv zeta. assert (T : l_trace (lrun c56_async c56_sched (linit c56_steps)) = [LRan 0; LAwaits 0 [1; 2]; LDone 2; LDone 1; LRan 1; LAwaits 1 [3]; LDone 9; LDone 3; LRan 2; LEnded 2]%N) by reflexivity.
  split; [|split; reflexivity]. rewrite T.
  assert (S : forall o, o <> 2%N -> slow c56_async c56_steps o).
  { intros o Ho. split.
    - intros t o'. unfold c56_async. destruct (o' =? 2)%N; cbn; intuition.
    - intros f t [<-|[<-|[<-|[]]]]; cbn; auto. }
  clear T. intros t1 k ops t2 H Hn.
  do 10 (destruct t1 as [|ev t1]; [cbn in H; try discriminate H; injection H as <- <- <-; eexists; (split; [left; reflexivity|]); (split; [apply S; discriminate|]); clear; cbn; intros X; repeat (destruct X as [X|X]; [discriminate|]); exact X|injection H as <- H]).
  destruct t1; discriminate H.
Qed.
Print Assumptions C56_steps_in_order.
Print Assumptions C56_no_step_lost.

(** ** C57.  A step whose awaited operations are all complete when it returns. *)
Definition immediate {E} (t : list (levent E)) (r : sres E) : Prop :=
  sr_err r = None /\ sr_end r = false /\ sr_group r <> [] /\ incl (sr_group r) (dones t ++ sr_done r).
Section Repeat.
Context {E : Type}.
Variable async : list (levent E) -> N -> list N.
Variable f : step E.
Variable rest : list (step E).
Hypothesis Hf : forall t, immediate t (f t).
Notation conf := (lconf E).
Definition base (c : conf) (d : nat) : Prop :=
  l_panicked c = false /\ l_regs c = [] /\ l_ended c = false /\ (exists ss, l_steps c = (0%nat, f) :: ss) /\
  runs (l_trace c) = repeat 0%nat d /\ (forall o, In o (l_done c) <-> In o (dones (l_trace c))).
Inductive again (c : conf) : Prop :=
| A0 d : base c d -> l_stack c = INext :: repeat IAdvance d -> again c
| A1 d r l : base c (S d) -> l_stack c = map IDone l ++ IRet 0 r :: repeat IAdvance d -> sr_err r = None -> sr_group r <> [] ->
    (forall o, In o (sr_group r) -> In o (l_done c) \/ In o l) -> l_completed c = 0%nat -> again c
| A2 d os : base c (S d) -> l_stack c = map IReg os ++ repeat IAdvance (S d) -> os <> [] -> incl os (l_done c) -> (l_completed c + List.length os = l_waiting c)%nat -> again c
| A3 d l o os : base c (S d) -> l_stack c = map IDone l ++ INotify o :: map IReg os ++ repeat IAdvance (S d) -> In o (l_done c) -> incl os (l_done c) ->
    (l_completed c + S (List.length os) = l_waiting c)%nat -> again c
| A4 d os : base c (S d) -> l_stack c = ICheck :: map IReg os ++ repeat IAdvance (S d) -> incl os (l_done c) -> (l_completed c + S (List.length os) = l_waiting c)%nat -> again c.

Lemma base_done c d o rest' : base c d -> base (do_done o rest' c) d /\ l_stack (do_done o rest' c) = rest' /\ incl (o :: l_done c) (l_done (do_done o rest' c)) /\
  l_completed (do_done o rest' c) = l_completed c /\ l_waiting (do_done o rest' c) = l_waiting c.
Proof.
  intros (B1 & B2 & B3 & B4 & B5 & B6). unfold do_done. destruct (mem o (l_done c)) eqn:Em.
  - apply mem_In in Em. unfold base. cbn. rewrite app_nil_r. repeat split; auto; try apply B6. intros x [<-|X]; auto.
  - unfold base. cbn. rewrite B2. cbn. rewrite runs_done, dones_done. repeat split; auto.
    + intros [<-|X]; apply in_app_iff; [right; now left|left; now apply B6].
    + intros X. apply in_app_iff in X as [X|[X|[]]]; [right; now apply B6|now left].
    + apply incl_refl.
Qed.
Lemma again_init : again (linit (f :: rest)).
Proof. apply (A0 _ 0); [|reflexivity]. repeat split; cbn; eauto; intros []. Qed.
Lemma again_step c o : again c -> again (lstep async c o).
Proof.
  intros [d B Hs|d r l B Hs He Hg Hi Hc|d os B Hs Hn Hi Hc|d l o' os B Hs Hd Hi Hc|d os B Hs Hi Hc];
    assert (Hp : l_panicked c = false) by apply B; unfold lstep; rewrite Hp, Hs.
  - unfold do_next. destruct B as (B1 & B2 & B3 & (ss & B4) & B5 & B6). rewrite B4. destruct (Hf (l_trace c)) as (F1 & F2 & F3 & F4).
    apply (A1 _ d (f (l_trace c)) (sr_done (f (l_trace c)))); cbn; auto.
    + unfold base. cbn. rewrite B3, F2. repeat split; eauto.
      * rewrite runs_app, B5. now rewrite <- repeat_cons.
      * rewrite dones_app. intros X. apply in_app_iff. left. now apply B6.
      * rewrite dones_app. intros X. apply in_app_iff in X as [X|[]]. now apply B6.
    + intros x Hx. apply F4, in_app_iff in Hx as [Hx|Hx]; auto. left. now apply B6.
  - destruct l as [|x l].
    + cbn [map app]. unfold do_ret. rewrite He. destruct B as (B1 & B2 & B3 & (ss & B4) & B5 & B6). rewrite B3.
      apply (A2 _ d (sr_group r)); cbn; auto.
      * unfold base. cbn. repeat split; eauto.
        -- rewrite runs_app, B5. unfold runs. cbn. now rewrite app_nil_r.
        -- rewrite dones_app. intros X. apply in_app_iff. left. now apply B6.
        -- rewrite dones_app. intros X. apply in_app_iff in X as [X|[]]. now apply B6.
      * intros x Hx. destruct (Hi x Hx) as [X|[]]. exact X.
      * now rewrite Hc.
    + cbn [map app]. destruct (base_done c _ x (map IDone l ++ IRet 0 r :: repeat IAdvance d) B) as (B' & S' & D' & C' & W').
      apply (A1 _ d r l); auto; [|congruence]. intros y Hy. destruct (Hi y Hy) as [X|[<-|X]]; auto; left; apply D'; [now right|now left].
  - destruct os as [|x os]; [congruence|]. cbn [map app]. apply (A3 _ d (async (l_trace c) x) x os); cbn; auto.
    + destruct B as (B1 & B2 & B3 & B4 & B5 & B6). unfold base. cbn. rewrite app_nil_r. auto 10.
    + apply Hi. now left.
    + intros y Hy. apply Hi. now right.
  - destruct l as [|x l].
    + cbn [map app]. unfold do_notify. apply mem_In in Hd. rewrite Hd. apply (A4 _ d os); cbn; auto.
      destruct B as (B1 & B2 & B3 & B4 & B5 & B6). unfold base. cbn. rewrite app_nil_r. auto 10.
    + cbn [map app]. destruct (base_done c _ x (map IDone l ++ INotify o' :: map IReg os ++ repeat IAdvance (S d)) B) as (B' & S' & D' & C' & W').
      apply (A3 _ d l o' os); auto; [apply D'; now right| |congruence]. intros y Hy. apply D'. right. auto.
  - unfold do_check. destruct os as [|x os].
    + cbn [map app]. destruct (Nat.leb_spec (l_waiting c) (S (l_completed c))) as [Q|Q]; [|cbn in Hc; lia]. apply (A0 _ (S d)); auto.
    + destruct (Nat.leb_spec (l_waiting c) (S (l_completed c))) as [Q|Q]; [cbn in Hc; lia|]. apply (A2 _ d (x :: os)); cbn; auto; [discriminate|]. cbn in Hc. lia.
Qed.
Lemma again_run sched : forall c, again c -> again (lrun async sched c).
Proof. induction sched as [|o sched IH]; intros c H; [exact H|]. apply (IH (lstep async c o)). now apply again_step. Qed.
Lemma lrun_app a b (c : conf) : lrun async (a ++ b) c = lrun async b (lrun async a c).
Proof. apply fold_left_app. Qed.
(** From each of these states the step is started again. *)
Lemma drop_done l : forall c d tail, base c d -> l_stack c = map IDone l ++ tail -> exists sched, let c' := lrun async sched c in
  base c' d /\ l_stack c' = tail /\ incl (l ++ l_done c) (l_done c') /\ l_completed c' = l_completed c /\ l_waiting c' = l_waiting c.
Proof.
  induction l as [|x l IH]; intros c d tail B Hs; [exists []; cbn; auto using incl_refl|].
  destruct (base_done c d x (map IDone l ++ tail) B) as (B' & S' & D' & C' & W'). destruct (IH _ d tail B' S') as (sched & B2 & S2 & D2 & C2 & W2).
  exists (0 :: sched)%N. cbv zeta. change (lrun async (0%N :: sched) c) with (lrun async sched (lstep async c 0)).
  assert (X : lstep async c 0 = do_done x (map IDone l ++ tail) c). { unfold lstep. rewrite Hs. destruct B as (-> & _). reflexivity. }
  rewrite X. repeat split; try assumption; try congruence; try apply B2. cbn [app].
  intros y [<-|Hy]; apply D2, in_app_iff; [right; apply D'; now left|]. apply in_app_iff in Hy as [Hy|Hy]; [auto|]. right. apply D'. now right.
Qed.
Lemma loop_again os : forall c d, base c (S d) -> l_stack c = map IReg os ++ repeat IAdvance (S d) -> os <> [] -> incl os (l_done c) -> (l_completed c + List.length os = l_waiting c)%nat ->
  exists sched, let c' := lrun async sched c in base c' (S d) /\ l_stack c' = INext :: repeat IAdvance (S d).
Proof.
  induction os as [|x os IH]; intros c d B Hs Hn Hi Hc; [congruence|].
  set (c1 := lstep async c 0). assert (X1 : c1 = l_push c [] (map IDone (async (l_trace c) x) ++ INotify x :: map IReg os ++ repeat IAdvance (S d))).
  { unfold c1, lstep. rewrite Hs. destruct B as (-> & _). reflexivity. }
  assert (B1 : base c1 (S d)). { rewrite X1. destruct B as (B1 & B2 & B3 & B4 & B5 & B6). unfold base. cbn [l_push l_panicked l_regs l_ended l_steps l_trace l_done]. rewrite app_nil_r. auto 10. }
  destruct (drop_done (async (l_trace c) x) c1 (S d) (INotify x :: map IReg os ++ repeat IAdvance (S d)) B1) as (sched & B2 & S2 & D2 & C2 & W2); [now rewrite X1|].
  set (c2 := lrun async sched c1) in *.
  assert (D : mem x (l_done c2) = true). { apply mem_In, D2, in_app_iff. right. rewrite X1. apply Hi. now left. }
  set (c3 := lstep async c2 0). assert (X3 : c3 = l_push c2 [] (ICheck :: map IReg os ++ repeat IAdvance (S d))).
  { unfold c3, lstep. rewrite S2. destruct B2 as (-> & _). unfold do_notify. now rewrite D. }
  assert (B3 : base c3 (S d)). { rewrite X3. destruct B2 as (B21 & B22 & B23 & B24 & B25 & B26). unfold base. cbn [l_push l_panicked l_regs l_ended l_steps l_trace l_done]. rewrite app_nil_r. auto 10. }
  set (c4 := lstep async c3 0). assert (X4 : c4 = do_check (map IReg os ++ repeat IAdvance (S d)) c3).
  { unfold c4, lstep. destruct B3 as (-> & _). rewrite X3. reflexivity. }
  assert (B4 : base c4 (S d)). { rewrite X4. exact B3. }
  assert (E4 : l_completed c4 = S (l_completed c)). { rewrite X4, X3. cbn. rewrite C2, X1. reflexivity. }
  assert (W4 : l_waiting c4 = l_waiting c). { rewrite X4, X3. cbn. rewrite W2, X1. reflexivity. }
  assert (R4 : forall s', lrun async ([0] ++ sched ++ [0; 0] ++ s')%N c = lrun async s' c4).
  { intros s'. rewrite !lrun_app. reflexivity. }
  assert (S4 : l_stack c4 = if (l_waiting c <=? S (l_completed c))%nat then INext :: map IReg os ++ repeat IAdvance (S d) else map IReg os ++ repeat IAdvance (S d)).
  { rewrite X4, X3. cbn. now rewrite C2, W2, X1. }
  destruct os as [|y os].
  - exists ([0] ++ sched ++ [0; 0] ++ [])%N. cbv zeta. rewrite R4. split; [exact B4|]. cbn in S4, Hc. destruct (Nat.leb_spec (l_waiting c) (S (l_completed c))); [exact S4|lia].
  - destruct (IH c4 d B4) as (s' & X & Y).
    + rewrite S4. cbn in Hc. destruct (Nat.leb_spec (l_waiting c) (S (l_completed c))); [lia|reflexivity].
    + discriminate.
    + intros z Hz. rewrite X4, X3. cbn. apply D2, in_app_iff. right. rewrite X1. apply Hi. now right.
    + rewrite E4, W4. cbn in *. lia.
    + exists ([0] ++ sched ++ [0; 0] ++ s')%N. cbv zeta. rewrite R4. auto.
Qed.
Lemma next_again c d : base c d -> l_stack c = INext :: repeat IAdvance d ->
  exists sched, let c' := lrun async sched c in base c' (S d) /\ l_stack c' = INext :: repeat IAdvance (S d).
Proof.
  intros B Hs. set (r := f (l_trace c)). destruct (Hf (l_trace c)) as (F1 & F2 & F3 & F4). fold r in F1, F2, F3, F4.
  set (c1 := lstep async c 0). assert (X1 : c1 = do_next (repeat IAdvance d) c). { unfold c1, lstep. rewrite Hs. destruct B as (-> & _). reflexivity. }
  destruct B as (B1 & B2 & B3 & (ss & B4) & B5 & B6). unfold do_next in X1. rewrite B4 in X1. fold r in X1. rewrite B3, F2 in X1.
  assert (Bc : base c1 (S d)).
  { rewrite X1. unfold base. cbn. repeat split; eauto.
    - rewrite runs_app, B5. now rewrite <- repeat_cons.
    - rewrite dones_app. intros X. apply in_app_iff. left. now apply B6.
    - rewrite dones_app. intros X. apply in_app_iff in X as [X|[]]. now apply B6. }
  destruct (drop_done (sr_done r) c1 (S d) (IRet 0 r :: repeat IAdvance d) Bc) as (s1 & Bd & Sd & Dd & Cd & Wd); [now rewrite X1|].
  set (c2 := lrun async s1 c1) in *.
  set (c3 := lstep async c2 0). assert (X3 : c3 = do_ret 0 r (repeat IAdvance d) c2). { unfold c3, lstep. rewrite Sd. destruct Bd as (-> & _). reflexivity. }
  destruct Bd as (D1 & D2 & D3 & (ss' & D4) & D5 & D6). unfold do_ret in X3. rewrite F1, D3 in X3.
  assert (Be : base c3 (S d)).
  { rewrite X3. unfold base. cbn. repeat split; eauto.
    - rewrite runs_app, D5. unfold runs. cbn. now rewrite app_nil_r.
    - rewrite dones_app. intros X. apply in_app_iff. left. now apply D6.
    - rewrite dones_app. intros X. apply in_app_iff in X as [X|[]]. now apply D6. }
  destruct (loop_again (sr_group r) c3 d Be) as (s2 & X & Y).
  - rewrite X3. reflexivity.
  - exact F3.
  - intros x Hx. rewrite X3. cbn. apply Dd, in_app_iff. apply F4, in_app_iff in Hx as [Hx|Hx]; [right; rewrite X1; cbn; now apply B6|now left].
  - rewrite X3. cbn. rewrite Cd, X1. reflexivity.
  - exists ([0] ++ s1 ++ [0] ++ s2)%N. cbv zeta. rewrite !lrun_app. auto.
Qed.
End Repeat.
(** The first step is started again and again, no other step ever, and the
    subscription never returns. *)
Theorem C57_step_repeats_forever :
  forall E async (f : step E) rest, (forall t, immediate t (f t)) ->
    (forall sched, let c := lrun async sched (linit (f :: rest)) in
      (exists d, runs (l_trace c) = repeat 0%nat d) /\ l_stack c <> []) /\
    (forall n, exists sched, runs (l_trace (lrun async sched (linit (f :: rest)))) = repeat 0%nat n).
Proof.
  intros E async f rest Hf. split.
  - intros sched c. pose proof (again_run async f Hf sched _ (again_init f rest)) as A. fold c in A.
    destruct A as [d B Hs|d r l B Hs He Hg Hi Hc|d os B Hs Hn Hi Hc|d l o' os B Hs Hd Hi Hc|d os B Hs Hi Hc]; (split; [eexists; apply B|rewrite Hs]).
    + discriminate.
    + now destruct l.
    + now destruct os.
    + now destruct l.
    + discriminate.
  - intros n. assert (X : exists sched, base f (lrun async sched (linit (f :: rest))) n /\ l_stack (lrun async sched (linit (f :: rest))) = INext :: repeat IAdvance n).
    { induction n as [|n (sched & B & S)].
      - exists []. split; [|reflexivity]. repeat split; cbn; eauto; intros [].
      - destruct (next_again async f Hf _ n B S) as (s2 & B2 & S2). exists (sched ++ s2). rewrite lrun_app. auto. }
    destruct X as (sched & B & _). exists sched. apply B.
Qed.
(** If the repeated step waits for something unfinished the second time, the
    step after it is skipped; or, if it was the last, the flow panics. *)
Definition retry : step N := fun t =>
  match runs t with [] => {| sr_done := [1%N]; sr_end := false; sr_err := None; sr_group := [1%N] |}
  | _ => {| sr_done := []; sr_end := false; sr_err := None; sr_group := [7%N] |} end.
Theorem C57_following_step_skipped :
  forall (g h : step N) rest, exists sched, runs (l_trace (lrun (fun _ _ => []) sched (linit (retry :: g :: h :: rest)))) = [0; 0; 2]%nat.
Proof. intros g h rest. exists ([0; 0; 0; 0; 0; 0] ++ [0; 0; 0; 0; 0; 0] ++ [7; 0; 0; 0])%N. reflexivity. Qed.
Theorem C57_last_step_panics :
  exists sched, l_panicked (lrun (fun _ _ => []) sched (linit [retry])) = true.
Proof. exists (repeat 0 20)%N. reflexivity. Qed.
(** An immediate value (mono.Just), awaited. *)
Definition just : step N := fun t => let o := N.of_nat (List.length t) in {| sr_done := [o]; sr_end := false; sr_err := None; sr_group := [o] |}.
Example C57_example : (forall t, immediate t (just t)) /\
  runs (l_trace (lrun (fun _ _ => []) (repeat 0%N 40) (linit [just; retry]))) = repeat 0%nat 7.
Proof. split; [|reflexivity]. intros t. repeat split; try discriminate. intros x Hx. apply in_app_iff. now right. Qed.
Print Assumptions C57_step_repeats_forever.
Print Assumptions C57_following_step_skipped.
Print Assumptions C57_last_step_panics.
