(** Properties C34, C35, C74: the table of open streams. *)
From Verif Require Import Base BaseFacts LookupModel LookupProofs.

(** *** C34: a map, as long as the oldest stream is not removed *)
(** Specification: the streams added and not since removed, oldest first. *)
Definition plain_step (l : list stream) (c : lk_call) : list stream :=
  match c with
  | LAdd s => l ++ [s]
  | LRemove id => filter (fun s => negb (fst s =? id)) l
  end.
Definition plain (calls : list lk_call) : list stream := fold_left plain_step calls [].
(** Ids are not added while present; the oldest stream is not removed. *)
Fixpoint careful (l : list stream) (calls : list lk_call) : Prop :=
  match calls with
  | [] => True
  | c :: calls' =>
      match c with
      | LAdd s => ~ In (fst s) (map fst l)
      | LRemove id => match l with [] => True | s :: _ => fst s <> id end
      end /\ careful (plain_step l c) calls'
  end.

Definition table_of (l : list stream) : table :=
  {| t_stuck := firstn 1 l; t_live := skipn 1 l; t_count := Z.of_nat (List.length l) |}.
Lemma delete_filter : forall id l, NoDup (map fst l) ->
  delete_first id l = filter (fun s : stream => negb (fst s =? id)) l
  /\ (existsb (has_id id) l = true -> S (List.length (delete_first id l)) = List.length l)
  /\ (existsb (has_id id) l = false -> filter (fun s : stream => negb (fst s =? id)) l = l).
Proof.
  induction l as [|s l IH]; intros H; [repeat split; auto; discriminate|].
  cbn [map] in H. inversion H as [|? ? Hs Hl]; subst. destruct (IH Hl) as (I1 & I2 & I3).
  cbn [delete_first filter existsb]. change (has_id id s) with (fst s =? id). destruct (N.eqb_spec (fst s) id) as [E0|Hne]; cbn [negb orb].
  - split.
    + rewrite I3; [reflexivity|]. subst id. destruct (existsb (has_id (fst s)) l) eqn:E; [|reflexivity].
      apply existsb_exists in E. destruct E as (x & Hx & E). apply N.eqb_eq in E.
      elim Hs. rewrite <- E. now apply in_map.
    + split; [reflexivity|discriminate].
  - rewrite I1. split; [reflexivity|]. split.
    + intros E. cbn [List.length]. rewrite <- I1. now rewrite I2.
    + intros E. now rewrite I3.
Qed.
Lemma careful_table : forall calls l, NoDup (map fst l) -> careful l calls ->
  fold_left table_step calls (table_of l) = table_of (fold_left plain_step calls l).
Proof.
  induction calls as [|c calls IH]; intros l HN Hc; [reflexivity|].
  cbn [careful] in Hc. destruct Hc as [Hc Hrest]. cbn [fold_left].
  assert (HN' : NoDup (map fst (plain_step l c))).
  { destruct c as [s|id]; cbn [plain_step].
    - rewrite map_app. apply NoDup_snoc; auto.
    - clear -HN. induction l as [|x l IH]; cbn [filter map] in *; [constructor|].
      inversion HN as [|? ? Hx Hl]; subst. destruct (negb (fst x =? id)); [|auto].
      cbn [map]. constructor; [|auto]. intros C. apply Hx. apply in_map_iff in C.
      destruct C as (y & E & Hy). apply filter_In in Hy. rewrite <- E. apply in_map. apply Hy. }
  rewrite <- (IH _ HN' Hrest). f_equal.
  destruct c as [s|id]; cbn [table_step plain_step].
  - unfold table_add, table_of. destruct l as [|x l]; cbn [t_stuck t_live t_count firstn skipn app List.length].
    + reflexivity.
    + rewrite app_length. cbn [List.length]. f_equal. lia.
  - unfold table_remove, table_of. destruct l as [|x l]; [reflexivity|].
    cbn [t_stuck t_live t_count firstn skipn existsb filter].
    unfold has_id at 1. destruct (N.eqb_spec (fst x) id) as [E|_]; [contradiction|]. cbn [negb orb].
    inversion HN as [|? ? Hx Hl]; subst. destruct (delete_filter id l Hl) as (D1 & D2 & D3).
    destruct (existsb (has_id id) l) eqn:E; cbn [skipn List.length firstn].
    + unfold stream in *. rewrite <- D1. f_equal. specialize (D2 eq_refl). lia.
    + unfold stream in *. now rewrite D3.
Qed.
Theorem C34_table_is_a_map : forall calls id, careful [] calls ->
  lookup_get (lookup_run calls) id = List.find (fun s => fst s =? id) (plain calls)
  /\ lookup_size (lookup_run calls) = Z.of_nat (List.length (plain calls)).
Proof.
  intros calls id Hc. pose proof (lookup_refines_table calls) as R.
  rewrite (refines_get _ _ id R), (refines_size _ _ R). unfold table_run.
  change table_init with (table_of []). rewrite careful_table by (try exact Hc; constructor).
  fold (plain calls). unfold table_get, table_of. cbn [t_stuck t_live t_count].
  now rewrite firstn_skipn.
Qed.
Example C34_example :
  let calls := [LAdd (1, 10); LAdd (3, 30); LAdd (5, 50); LRemove 3; LRemove 7; LAdd (3, 31); LRemove 5] in
  careful [] calls /\ plain calls = [(1, 10); (3, 31)]
  /\ lookup_get (lookup_run calls) 3 = Some (3, 31) /\ lookup_get (lookup_run calls) 5 = None
  /\ lookup_size (lookup_run calls) = 2%Z.
Proof. vm_compute. intuition discriminate. Qed.
Print Assumptions C34_table_is_a_map.

(** *** C35: removing the oldest stream *)
Lemma stuck_stays : forall calls t, exists more, t_stuck (fold_left table_step calls t) = t_stuck t ++ more.
Proof.
  induction calls as [|c calls IH]; intros t; [exists []; now rewrite app_nil_r|].
  cbn [fold_left]. destruct (IH (table_step t c)) as (m & ->).
  assert (G : exists m', t_stuck (table_step t c) = t_stuck t ++ m').
  { destruct c as [s|id]; cbn [table_step].
    - unfold table_add. destruct (t_stuck t) eqn:E; cbn [t_stuck].
      + exists [s]. reflexivity.
      + exists []. now rewrite app_nil_r.
    - unfold table_remove. destruct (existsb (has_id id) (t_stuck t)).
      + destruct (t_live t) as [|x l]; [exists []; now rewrite app_nil_r|].
        destruct (at_end id (t_stuck t)); cbn [t_stuck]; eexists; [reflexivity|now rewrite app_nil_r].
      + destruct (existsb (has_id id) (t_live t)); exists []; now rewrite app_nil_r. }
  destruct G as (m' & ->). exists (m' ++ m). now rewrite app_assoc.
Qed.
(** Whatever is done afterwards, the first stream added stays. *)
Theorem C35_first_stream_never_removed : forall s calls,
  lookup_get (lookup_run (LAdd s :: calls)) (fst s) = Some s.
Proof.
  intros s calls. rewrite (refines_get _ _ _ (lookup_refines_table _)).
  unfold table_run, table_get. cbn [fold_left table_step table_add table_init t_stuck t_live t_count].
  destruct (stuck_stays calls (table_add s table_init)) as (m & E). unfold table_add, table_init in E.
  cbn [t_stuck t_live t_count] in E. rewrite E.
  cbn [app List.find]. unfold has_id at 1. now rewrite N.eqb_refl.
Qed.
(** And once it has been removed, the stream opened next stays as well. *)
Theorem C35_successor_becomes_permanent : forall s s' calls, fst s <> fst s' ->
  lookup_get (lookup_run (LAdd s :: LAdd s' :: LRemove (fst s) :: calls)) (fst s') = Some s'.
Proof.
  intros s s' calls Hne. rewrite (refines_get _ _ _ (lookup_refines_table _)).
  unfold table_run, table_get.
  change (LAdd s :: LAdd s' :: LRemove (fst s) :: calls) with ([LAdd s; LAdd s'; LRemove (fst s)] ++ calls).
  rewrite fold_left_app.
  assert (E0 : t_stuck (fold_left table_step [LAdd s; LAdd s'; LRemove (fst s)] table_init) = [s; s']).
  { cbn [fold_left table_step]. unfold table_add, table_remove, table_init. cbn [t_stuck t_live app existsb at_end].
    unfold has_id. rewrite N.eqb_refl. reflexivity. }
  destruct (stuck_stays calls (fold_left table_step [LAdd s; LAdd s'; LRemove (fst s)] table_init)) as (m & E).
  rewrite E0 in E. rewrite E. cbn [app List.find]. unfold has_id at 1 2.
  destruct (N.eqb_spec (fst s) (fst s')); [contradiction|]. now rewrite N.eqb_refl.
Qed.
(** Yet every such removal decrements the size, below zero if repeated. *)
Theorem C35_size_goes_negative : forall s n,
  lookup_size (lookup_run (LAdd s :: repeat (LRemove (fst s)) n)) = (1 - Z.of_nat n)%Z
  /\ lookup_get (lookup_run (LAdd s :: repeat (LRemove (fst s)) n)) (fst s) = Some s.
Proof.
  intros s n. split; [|apply C35_first_stream_never_removed].
  rewrite (refines_size _ _ (lookup_refines_table _)). unfold table_run. cbn [fold_left].
  assert (G : forall n c, fold_left table_step (repeat (LRemove (fst s)) n) {| t_stuck := [s]; t_live := []; t_count := c |}
     = {| t_stuck := [s]; t_live := []; t_count := (c - Z.of_nat n)%Z |}).
  { clear. induction n as [|n IH]; intros c; [cbn; f_equal; lia|].
    cbn [repeat fold_left table_step]. unfold table_remove at 1. cbn [t_stuck t_live t_count existsb].
    unfold has_id at 1. rewrite N.eqb_refl. cbn [orb]. rewrite IH. f_equal. lia. }
  change (table_step table_init (LAdd s)) with {| t_stuck := [s]; t_live := []; t_count := 1%Z |}.
  now rewrite G.
Qed.
Example C35_example :
  let calls := [LAdd (1, 10); LAdd (3, 30); LRemove 1; LRemove 3; LRemove 3; LRemove 1] in
  lookup_get (lookup_run calls) 1 = Some (1, 10) /\ lookup_get (lookup_run calls) 3 = Some (3, 30)
  /\ lookup_size (lookup_run calls) = (-2)%Z.
Proof. vm_compute. auto. Qed.
Print Assumptions C35_first_stream_never_removed.
Print Assumptions C35_successor_becomes_permanent.
Print Assumptions C35_size_goes_negative.

(** *** C74: streams closed in the order they were opened are all kept *)
Lemma adds_table : forall l s, fold_left table_step (map LAdd l) {| t_stuck := [s]; t_live := []; t_count := 1%Z |}
  = {| t_stuck := [s]; t_live := l; t_count := (1 + Z.of_nat (List.length l))%Z |}.
Proof.
  intros l s. induction l as [|x l IH] using rev_ind; [reflexivity|].
  rewrite map_app, fold_left_app, IH. cbn [map fold_left table_step table_add t_stuck t_live t_count].
  rewrite app_length. cbn [List.length]. f_equal. lia.
Qed.
Lemma at_end_last : forall id l s, Forall (fun x => has_id id x = false) l -> has_id id s = true ->
  at_end id (l ++ [s]) = true.
Proof.
  induction 1 as [|x l Hx Hl IH]; intros Hs; cbn [app at_end]; [now rewrite Hs|]. rewrite Hx. auto.
Qed.
Theorem C74_closing_in_order_keeps_all : forall l s, NoDup (map fst (s :: l)) ->
  let t := lookup_run (map LAdd (s :: l) ++ map (fun x => LRemove (fst x)) (s :: l)) in
  lookup_size t = 0%Z /\ forall x, In x (s :: l) -> lookup_get t (fst x) = Some x.
Proof.
  intros l s HN t.
  assert (R := lookup_refines_table (map LAdd (s :: l) ++ map (fun x => LRemove (fst x)) (s :: l))).
  fold t in R. rewrite (refines_size _ _ R).
  assert (E : table_run (map LAdd (s :: l) ++ map (fun x => LRemove (fst x)) (s :: l))
     = {| t_stuck := s :: l; t_live := []; t_count := 0%Z |}).
  { unfold table_run. rewrite fold_left_app. cbn [map fold_left].
    change (table_step table_init (LAdd s)) with {| t_stuck := [s]; t_live := []; t_count := 1%Z |}.
    rewrite adds_table.
    (* removing [s] and then [l], when [pre ++ [s]] are stuck already *)
    assert (G : forall l pre s c, NoDup (map fst (pre ++ s :: l)) ->
      fold_left table_step (map (fun x : stream => LRemove (fst x)) l)
        (table_step {| t_stuck := pre ++ [s]; t_live := l; t_count := c |} (LRemove (fst s)))
      = {| t_stuck := pre ++ s :: l; t_live := []; t_count := (c - 1 - Z.of_nat (List.length l))%Z |}).
    { clear. induction l as [|y l IH]; intros pre s c HN; cbn [map fold_left table_step].
      - unfold table_remove. cbn [t_stuck t_live t_count].
        assert (Ex : existsb (has_id (fst s)) (pre ++ [s]) = true).
        { rewrite existsb_app. cbn [existsb]. unfold has_id at 2. rewrite N.eqb_refl. now rewrite orb_true_r. }
        rewrite Ex. cbn [List.length]. f_equal. lia.
      - unfold table_remove at 2. cbn [t_stuck t_live t_count].
        assert (Ex : existsb (has_id (fst s)) (pre ++ [s]) = true).
        { rewrite existsb_app. cbn [existsb]. unfold has_id at 2. rewrite N.eqb_refl. now rewrite orb_true_r. }
        assert (Ea : at_end (fst s) (pre ++ [s]) = true).
        { apply at_end_last.
          - apply Forall_forall. intros x Hx. unfold has_id. apply N.eqb_neq. intros C.
            rewrite map_app in HN. cbn [map] in HN. apply NoDup_remove_2 in HN. apply HN.
            apply in_or_app. left. rewrite <- C. now apply in_map.
          - unfold has_id. apply N.eqb_refl. }
        rewrite Ex, Ea.
        specialize (IH (pre ++ [s]) y (c - 1)%Z). rewrite <- !app_assoc in IH. cbn [app] in IH.
        specialize (IH HN). rewrite <- app_assoc. cbn [app].
        cbn [table_step] in IH. etransitivity; [exact IH|]. f_equal. cbn [List.length]. lia. }
    rewrite (G l [] s _ HN). cbn [app]. f_equal. unfold stream in *. lia. }
  rewrite E. cbn [t_count]. split; [reflexivity|].
  intros x Hx. rewrite (refines_get _ _ _ R), E. unfold table_get. cbn [t_stuck t_live]. rewrite app_nil_r.
  revert Hx HN. generalize (s :: l). clear. induction l as [|y l IH]; intros Hx HN; [destruct Hx|].
  cbn [List.find map] in *. inversion HN as [|? ? Hy Hl]; subst. unfold has_id at 1.
  destruct Hx as [->|Hx]; [now rewrite N.eqb_refl|].
  destruct (N.eqb_spec (fst y) (fst x)) as [E|_]; [|auto].
  elim Hy. rewrite E. now apply in_map.
Qed.
Example C74_example :
  let t := lookup_run [LAdd (2, 20); LAdd (4, 40); LAdd (6, 60); LRemove 2; LRemove 4; LRemove 6] in
  lookup_size t = 0%Z /\ lookup_get t 4 = Some (4, 40) /\ lookup_get t 6 = Some (6, 60).
Proof. vm_compute. auto. Qed.
Print Assumptions C74_closing_in_order_keeps_all.
