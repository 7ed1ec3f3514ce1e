(** Proofs about the operation table and the handler registry. *)
From Verif Require Import Base BaseFacts FramesModel FramesProofs InvokeModel.
Local Ltac Zify.zify_post_hook ::= Z.div_mod_to_equations.

(** ** Serialised form (specification) *)
Definition op_bytes (o : oper) (reserved : bytes) : bytes :=
  [o_type o; o_dir o] ++ be 4 (o_index o) ++ be 2 (len (o_ns o)) ++ o_ns o
  ++ be 2 (len (o_name o)) ++ o_name o ++ be 2 (len reserved) ++ reserved.
Definition table_bytes (l : list (oper * bytes)) : bytes :=
  Magic ++ be 2 1 ++ be 4 (len l) ++ concat (map (fun x => op_bytes (fst x) (snd x)) l).
Definition oper_ok (o : oper) : Prop :=
  o_type o < 256 /\ o_dir o < 256 /\ o_index o < 2 ^ 32 /\ len (o_ns o) < 65536 /\ len (o_name o) < 65536.
(** What becomes of an operation with over-long names. *)
Definition cut_name (s : bytes) : bytes := takeN (len s mod 65536) s.
Definition cut_oper (o : oper) : oper :=
  {| o_index := o_index o; o_type := o_type o; o_dir := o_dir o;
     o_ns := cut_name (o_ns o); o_name := cut_name (o_name o) |}.

Lemma len_cut : forall s, len (cut_name s) = len s mod 65536.
Proof. intros. unfold cut_name. rewrite len_takeN. lia. Qed.

(** *** writers that may also touch bytes after what they are responsible for *)
Definition writes_pre (e : bytes -> res bytes) (w : bytes) (need : N) : Prop :=
  forall buf, need <= len buf -> exists rest, e buf = Ok (w ++ rest) /\ len w + len rest = len buf.
Lemma wp_done : writes_pre (fun b => Ok b) [] 0.
Proof. intros buf _. exists buf. auto. Qed.
Lemma wp_put : forall bs k w n, writes_pre k w n -> writes_pre (put bs k) (bs ++ w) (len bs + n).
Proof.
  intros bs k w n H buf Hl. unfold put.
  destruct (N.leb_spec (len bs) (len buf)); [|lia].
  destruct (H (dropN (len bs) buf)) as (rest & -> & Hr); [rewrite len_dropN; lia|].
  exists rest. cbn [bind]. rewrite <- app_assoc. split; [reflexivity|].
  rewrite len_app, len_dropN in *. lia.
Qed.
Lemma wp_copy : forall bs k w n, writes_pre k w n ->
  writes_pre (copy_adv bs (u16 (len bs)) k) (cut_name bs ++ w) (len bs + n).
Proof.
  intros bs k w n H buf Hl. unfold copy_adv. rewrite copy_into_fits by lia.
  rewrite len_app, len_dropN. unfold u16.
  destruct (N.leb_spec (len bs mod 65536) (len bs + (len buf - len bs))); [|lia].
  destruct (H (dropN (len bs mod 65536) (bs ++ dropN (len bs) buf))) as (rest & -> & Hr).
  { rewrite len_dropN, len_app, len_dropN. lia. }
  exists rest. cbn [bind]. rewrite takeN_app_le by lia. fold (cut_name bs).
  rewrite <- app_assoc. split; [reflexivity|].
  rewrite len_app, len_cut. rewrite len_dropN, len_app, len_dropN in Hr. lia.
Qed.

Fixpoint ops_need (t : list oper) : N :=
  match t with [] => 0 | o :: t' => 12 + len (o_ns o) + len (o_name o) + ops_need t' end.
Lemma table_size_need : forall t, 10 + ops_need t < 4294967296 -> table_size t = 10 + ops_need t.
Proof.
  intros t. unfold table_size.
  assert (G : forall a, a + ops_need t < 4294967296 ->
    fold_left (fun s o => u32 (s + u32 (12 + len (o_ns o) + len (o_name o)))) t a = a + ops_need t).
  { induction t as [|o t IH]; intros a Ha; cbn [fold_left ops_need] in *; [lia|].
    rewrite (u32_small (12 + _ + _)) by lia. rewrite u32_small by lia. rewrite IH by lia. lia. }
  apply G.
Qed.

Lemma write_ops_wp : forall t, Forall (fun o => o_type o < 256 /\ o_dir o < 256) t ->
  writes_pre (write_ops t) (concat (map (fun o => op_bytes (cut_oper o) []) t)) (ops_need t).
Proof.
  induction t as [|o t IH]; intros Hf; [exact wp_done|].
  inversion Hf as [|? ? [H1 H2] Ht]; subst. specialize (IH Ht).
  cbn [write_ops map concat ops_need].
  replace (12 + len (o_ns o) + len (o_name o) + ops_need t)
    with (2 + (4 + (2 + (len (o_ns o) + (2 + (len (o_name o) + (2 + ops_need t))))))) by lia.
  unfold op_bytes. cbn [cut_oper o_type o_dir o_index o_ns o_name].
  rewrite !len_cut, !u8_small by assumption.
  rewrite <- !app_assoc, app_nil_l.
  apply (wp_put [o_type o; o_dir o]).
  apply (wp_put (be 4 (o_index o))).
  apply (wp_put (be 2 (u16 (len (o_ns o))))).
  apply wp_copy.
  apply (wp_put (be 2 (u16 (len (o_name o))))).
  apply wp_copy.
  apply (wp_put (be 2 0)). exact IH.
Qed.

Lemma read_oper_bytes : forall o r rest, oper_ok o -> len r < 65534 ->
  read_oper (op_bytes o r ++ rest) = Ok (o, rest).
Proof.
  intros o r rest (H1 & H2 & H3 & H4 & H5) Hr. change (2 ^ 32) with 4294967296 in H3.
  unfold read_oper, op_bytes. rewrite <- !app_assoc.
  change ([o_type o; o_dir o] ++ ?x) with ([o_type o] ++ [o_dir o] ++ x).
  rewrite (get_be_exact 1 [o_type o]) by reflexivity. cbn [bind fst snd].
  rewrite (get_be_exact 1 [o_dir o]) by reflexivity. cbn [bind fst snd].
  rewrite get_be_app by exact H3. cbn [bind fst snd].
  rewrite get_be_app by exact H4. cbn [bind fst snd].
  rewrite split_at_ok by reflexivity. cbn [bind fst snd].
  rewrite get_be_app by exact H5. cbn [bind fst snd].
  rewrite split_at_ok by reflexivity. cbn [bind fst snd].
  rewrite get_be_app by (change (256 ^ N.of_nat 2) with 65536; lia). cbn [bind fst snd].
  unfold u16. rewrite N.mod_small by lia.
  rewrite app_assoc, slice_from_ok by (rewrite len_app, len_be; lia). cbn [bind].
  unfold unbe. cbn [fold_left]. rewrite !N.add_0_l. now destruct o.
Qed.
Lemma read_opers_bytes : forall l rest,
  Forall (fun x => oper_ok (fst x) /\ len (snd x) < 65534) l ->
  read_opers (List.length l) (concat (map (fun x => op_bytes (fst x) (snd x)) l) ++ rest)
  = Ok (map fst l).
Proof.
  induction l as [|[o r] l IH]; intros rest H; [reflexivity|].
  inversion H as [|? ? [H1 H2] Hl]; subst. cbn [fst snd] in *.
  cbn [List.length map concat read_opers fst snd]. rewrite <- app_assoc, read_oper_bytes by assumption.
  cbn [bind fst snd]. now rewrite IH.
Qed.
Lemma read_table_bytes : forall l rest,
  Forall (fun x => oper_ok (fst x) /\ len (snd x) < 65534) l -> len l < 4294967296 ->
  table_from_bytes (table_bytes l ++ rest) = Ok (map fst l).
Proof.
  intros l rest H Hl. unfold table_from_bytes, table_bytes. rewrite <- !app_assoc.
  rewrite split_at_ok by reflexivity. cbn [bind fst snd].
  destruct (list_eq_dec N.eq_dec Magic Magic) as [_|C]; [|congruence].
  rewrite get_be_app by reflexivity. cbn [bind fst snd]. change (1 =? 1) with true. cbv iota.
  rewrite get_be_app by exact Hl. cbn [bind fst snd].
  rewrite len_length. now apply read_opers_bytes.
Qed.

(** *** strict prefixes *)
Lemma get_be_prefix : forall k (p q x rest : bytes), p ++ q = x ++ rest -> List.length x = k ->
  (get_be k p = Panic /\ len p < N.of_nat k) \/ (exists p', p = x ++ p' /\ p' ++ q = rest /\ get_be k p = Ok (unbe x, p')).
Proof.
  intros k p q x rest H Hk. destruct (le_lt_dec k (List.length p)) as [Hle|Hlt].
  - right. exists (skipn k p).
    assert (Hx : firstn k p = x).
    { apply (f_equal (firstn k)) in H. rewrite !firstn_app in H.
      replace (k - List.length p)%nat with 0%nat in H by lia.
      replace (k - List.length x)%nat with 0%nat in H by lia.
      cbn [firstn] in H. rewrite !app_nil_r in H. rewrite (firstn_all2 x) in H by lia. exact H. }
    assert (Hp : p = x ++ skipn k p) by (rewrite <- Hx; symmetry; apply firstn_skipn).
    split; [exact Hp|]. split.
    + rewrite Hp, <- app_assoc in H. now apply app_inv_head in H.
    + rewrite Hp at 1. now apply get_be_exact.
  - left. split; [now apply get_be_short|]. unfold len. lia.
Qed.
Lemma split_at_prefix : forall n (p q x rest : bytes), p ++ q = x ++ rest -> len x = n ->
  (split_at n p = Panic) \/ (exists p', p' ++ q = rest /\ split_at n p = Ok (x, p')).
Proof.
  intros n p q x rest H Hn. unfold split_at. destruct (N.leb_spec n (len p)).
  - right. exists (dropN n p).
    assert (Hx : takeN n p = x).
    { apply (f_equal (takeN n)) in H. rewrite takeN_app_le in H by assumption.
      now rewrite takeN_app_exact in H. }
    split; [|now rewrite Hx].
    rewrite <- (take_drop _ n p), Hx, <- app_assoc in H. now apply app_inv_head in H.
  - now left.
Qed.

Lemma read_oper_prefix : forall o p q rest, oper_ok o -> p ++ q = op_bytes o [] ++ rest ->
  read_oper p = Panic \/ exists p', p' ++ q = rest /\ read_oper p = Ok (o, p').
Proof.
  intros o p q rest Ho H. pose proof Ho as (H1 & H2 & H3 & H4 & H5).
  unfold op_bytes in H. rewrite <- !app_assoc in H.
  change ([o_type o; o_dir o] ++ ?x) with ([o_type o] ++ [o_dir o] ++ x) in H.
  destruct (get_be_prefix 1 _ _ _ _ H eq_refl) as [[E _]|(p1 & P1 & Q1 & E1)].
  { left. unfold read_oper. now rewrite E. }
  destruct (get_be_prefix 1 _ _ _ _ Q1 eq_refl) as [[E _]|(p2 & P2 & Q2 & E2)].
  { left. unfold read_oper. rewrite E1. cbn [bind fst snd]. now rewrite E. }
  destruct (get_be_prefix 4 _ _ _ _ Q2 eq_refl) as [[E _]|(p3 & P3 & Q3 & E3)].
  { left. unfold read_oper. rewrite E1. cbn [bind fst snd]. rewrite E2. cbn [bind fst snd]. now rewrite E. }
  destruct (get_be_prefix 2 _ _ _ _ Q3 eq_refl) as [[E _]|(p4 & P4 & Q4 & E4)].
  { left. unfold read_oper. rewrite E1. cbn [bind fst snd]. rewrite E2. cbn [bind fst snd].
    rewrite E3. cbn [bind fst snd]. now rewrite E. }
  rewrite unbe_be_small in E4 by exact H4.
  destruct (split_at_prefix _ _ _ _ _ Q4 eq_refl) as [E|(p5 & Q5 & E5)].
  { left. unfold read_oper. rewrite E1. cbn [bind fst snd]. rewrite E2. cbn [bind fst snd].
    rewrite E3. cbn [bind fst snd]. rewrite E4. cbn [bind fst snd]. now rewrite E. }
  destruct (get_be_prefix 2 _ _ _ _ Q5 eq_refl) as [[E _]|(p6 & P6 & Q6 & E6)].
  { left. unfold read_oper. rewrite E1. cbn [bind fst snd]. rewrite E2. cbn [bind fst snd].
    rewrite E3. cbn [bind fst snd]. rewrite E4. cbn [bind fst snd]. rewrite E5. cbn [bind fst snd].
    now rewrite E. }
  rewrite unbe_be_small in E6 by exact H5.
  destruct (split_at_prefix _ _ _ _ _ Q6 eq_refl) as [E|(p7 & Q7 & E7)].
  { left. unfold read_oper. rewrite E1. cbn [bind fst snd]. rewrite E2. cbn [bind fst snd].
    rewrite E3. cbn [bind fst snd]. rewrite E4. cbn [bind fst snd]. rewrite E5. cbn [bind fst snd].
    rewrite E6. cbn [bind fst snd]. now rewrite E. }
  cbn [app] in Q7.
  destruct (get_be_prefix 2 _ _ _ _ Q7 eq_refl) as [[E _]|(p8 & P8 & Q8 & E8)].
  { left. unfold read_oper. rewrite E1. cbn [bind fst snd]. rewrite E2. cbn [bind fst snd].
    rewrite E3. cbn [bind fst snd]. rewrite E4. cbn [bind fst snd]. rewrite E5. cbn [bind fst snd].
    rewrite E6. cbn [bind fst snd]. rewrite E7. cbn [bind fst snd]. now rewrite E. }
  right. exists p8. split; [exact Q8|].
  assert (Hp : p = op_bytes o [] ++ p8).
  { apply (app_inv_tail q). rewrite H, <- app_assoc, Q8. unfold op_bytes.
    now rewrite <- !app_assoc. }
  rewrite Hp. apply read_oper_bytes; [exact Ho|]. cbn. lia.
Qed.
Lemma read_opers_prefix : forall l p q, Forall oper_ok l -> q <> [] ->
  p ++ q = concat (map (fun o => op_bytes o []) l) ->
  read_opers (List.length l) p = Panic.
Proof.
  induction l as [|o l IH]; intros p q H Hq E.
  - cbn in E. apply app_eq_nil in E. destruct E. congruence.
  - inversion H; subst. cbn [map concat] in E. cbn [List.length read_opers].
    destruct (read_oper_prefix o p q _ ltac:(eassumption) E) as [->|(p' & E' & ->)]; [reflexivity|].
    cbn [bind fst snd]. now rewrite (IH p' q).
Qed.

(** ** Registry invariants *)
Definition kind_eqb (a b : kind) : bool :=
  match a, b with RR, RR => true | FNF, FNF => true | RS, RS => true | RC, RC => true | _, _ => false end.
Definition kind_code (k : kind) : N := match k with RR => 1 | FNF => 2 | RS => 3 | RC => 4 end.

(** Specification: what a history of calls means. *)
Fixpoint exports_of (k : kind) (calls : list reg_call) : list (info * N) :=
  match calls with
  | [] => []
  | CExport k' i h :: c => if kind_eqb k k' then (i, h) :: exports_of k c else exports_of k c
  | CImport _ _ :: c => exports_of k c
  end.
(** The distinct names imported, oldest first. *)
Fixpoint imports_from (k : kind) (seen : list info) (calls : list reg_call) : list info :=
  match calls with
  | [] => seen
  | CImport k' i :: c =>
      if kind_eqb k k' then imports_from k (if existsb (info_eqb i) seen then seen else seen ++ [i]) c
      else imports_from k seen c
  | CExport _ _ _ :: c => imports_from k seen c
  end.
Definition imports_of (k : kind) (calls : list reg_call) : list info := imports_from k [] calls.

Definition handlers (k : kind) (s : registry) : list N :=
  match k with RR => rr_handlers s | FNF => fnf_handlers s | RS => rs_handlers s | RC => rc_handlers s end.
Definition infos (k : kind) (s : registry) : list info :=
  match k with RR => rr_info s | FNF => fnf_info s | RS => rs_info s | RC => rc_info s end.
Definition imports (k : kind) (s : registry) : list info :=
  match k with RR => rr_imports s | FNF => fnf_imports s | RS => rs_imports s | RC => rc_imports s end.

Lemma info_eqb_eq : forall a b, info_eqb a b = true <-> a = b.
Proof.
  intros [a1 a2] [b1 b2]. unfold info_eqb. cbn [fst snd].
  destruct (list_eq_dec N.eq_dec a1 b1), (list_eq_dec N.eq_dec a2 b2); cbn [andb]; split; intros H;
    try discriminate; try congruence.
Qed.
Lemma info_eqb_refl : forall a, info_eqb a a = true.
Proof. intros. now apply info_eqb_eq. Qed.
Lemma info_eqb_neq : forall a b, info_eqb a b = false <-> a <> b.
Proof.
  intros a b. rewrite <- (info_eqb_eq a b). destruct (info_eqb a b); split; intros; try congruence.
Qed.

Lemma find_info_none : forall l k i, find_info k l i = None <-> ~ In i l.
Proof.
  induction l as [|x l IH]; intros k i; cbn [find_info In].
  - split; auto.
  - destruct (info_eqb x i) eqn:E.
    + apply info_eqb_eq in E. split; [discriminate|]. intros H. exfalso. auto.
    + apply info_eqb_neq in E. rewrite IH. split; intros H; [intros [C|C]; auto|auto].
Qed.
Lemma find_info_some : forall l k i r, k + len l < 4294967296 -> find_info k l i = Some r ->
  exists n, r = k + N.of_nat n /\ nth_error l n = Some i /\
    (forall m, nth_error l m = Some i -> (n <= m)%nat).
Proof.
  induction l as [|x l IH]; intros k i r Hl H; cbn [find_info] in H; [discriminate|].
  rewrite len_cons in Hl. destruct (info_eqb x i) eqn:E.
  - apply info_eqb_eq in E. subst x. injection H as <-. exists 0%nat.
    rewrite u32_small by lia. split; [lia|]. split; [reflexivity|]. intros; lia.
  - apply info_eqb_neq in E. destruct (IH (k + 1) i r ltac:(lia) H) as (n & -> & Hn & Hm).
    exists (S n). split; [lia|]. split; [exact Hn|].
    intros [|m] Hx; cbn in Hx; [congruence|]. apply Hm in Hx. lia.
Qed.

Lemma existsb_in : forall i l, existsb (info_eqb i) l = true <-> In i l.
Proof.
  intros i l. rewrite existsb_exists. split.
  - intros (x & Hx & E). apply info_eqb_eq in E. now subst.
  - intros H. exists i. split; [exact H|apply info_eqb_refl].
Qed.

Lemma imports_from_app : forall k c1 c2 seen,
  imports_from k seen (c1 ++ c2) = imports_from k (imports_from k seen c1) c2.
Proof.
  induction c1 as [|[k' i h|k' i] c1 IH]; intros; cbn [app imports_from]; auto.
  destruct (kind_eqb k k'); auto.
Qed.
Lemma exports_of_app : forall k c1 c2, exports_of k (c1 ++ c2) = exports_of k c1 ++ exports_of k c2.
Proof.
  induction c1 as [|[k' i h|k' i] c1 IH]; intros; cbn [app exports_of]; auto.
  destruct (kind_eqb k k'); cbn [app]; now rewrite IH.
Qed.
Lemma reg_run_app : forall c1 c, reg_run (c1 ++ [c]) = reg_step (reg_run c1) c.
Proof. intros. unfold reg_run. now rewrite fold_left_app. Qed.

Lemma import_in_list : forall l i, snd (import_in l i) = if existsb (info_eqb i) l then l else l ++ [i].
Proof.
  intros l i. unfold import_in. destruct (find_info 0 l i) eqn:E.
  - destruct (existsb (info_eqb i) l) eqn:H; [reflexivity|]. exfalso.
    assert (Hn : ~ In i l) by (intros C; apply existsb_in in C; congruence).
    apply (find_info_none l 0) in Hn. congruence.
  - apply find_info_none in E. destruct (existsb (info_eqb i) l) eqn:H; [|reflexivity].
    apply existsb_in in H. contradiction.
Qed.

Lemma reg_inv : forall calls k,
  handlers k (reg_run calls) = map snd (exports_of k calls)
  /\ infos k (reg_run calls) = map fst (exports_of k calls)
  /\ imports k (reg_run calls) = imports_of k calls.
Proof.
  induction calls as [|c calls IH] using rev_ind; intros k.
  - destruct k; repeat split; reflexivity.
  - rewrite reg_run_app. unfold imports_of. rewrite exports_of_app, imports_from_app.
    destruct (IH k) as (H1 & H2 & H3). unfold imports_of in H3. rewrite !map_app, <- H1, <- H2, <- H3.
    destruct c as [k' i h|k' i].
    + destruct k, k'; cbn; rewrite ?app_nil_r; repeat split; reflexivity.
    + cbn [reg_step exports_of map imports_from]. rewrite !app_nil_r.
      destruct k, k'; cbn [do_import kind_eqb handlers infos imports];
        unfold import_rr, import_fnf, import_rs, import_rc;
        match goal with |- context [import_in ?l ?x] =>
          pose proof (import_in_list l x) as E; destruct (import_in l x) as [n l'] end;
        cbn [snd] in E; cbn; repeat split; try reflexivity; exact E.
Qed.
Lemma import_result : forall calls k i,
  fst (do_import k i (reg_run calls)) = fst (import_in (imports_of k calls) i).
Proof.
  intros calls k i. destruct (reg_inv calls k) as (_ & _ & H). rewrite <- H.
  destruct k; cbn [do_import imports]; unfold import_rr, import_fnf, import_rs, import_rc;
    now destruct (import_in _ i).
Qed.
Lemma get_result : forall calls k id,
  do_get k (reg_run calls) id = get_handler (map snd (exports_of k calls)) id.
Proof. intros calls k id. destruct (reg_inv calls k) as (H & _). rewrite <- H. destruct k; reflexivity. Qed.

Lemma get_handler_spec : forall l id, len l < 4294967296 ->
  get_handler l id = nth_error l (N.to_nat id).
Proof.
  intros l id H. unfold get_handler. rewrite u32_small by exact H.
  destruct (N.leb_spec (len l) id); [|reflexivity].
  symmetry. apply nth_error_None. unfold len in *. lia.
Qed.

Lemma convert_in : forall l k ty dir o, k + len l < 4294967296 ->
  In o (convert_operations k l ty dir) <->
  exists n i, nth_error l n = Some i /\
    o = {| o_index := k + N.of_nat n; o_type := ty; o_dir := dir; o_ns := fst i; o_name := snd i |}.
Proof.
  induction l as [|x l IH]; intros k ty dir o Hl.
  - split; [intros []|]. intros ([|n] & i & H & _); discriminate.
  - rewrite len_cons in Hl. cbn [convert_operations In]. rewrite IH by lia. rewrite u32_small by lia. split.
    + intros [<-|(n & i & H & ->)].
      * exists 0%nat, x. split; [reflexivity|]. f_equal; lia.
      * exists (S n), i. split; [exact H|]. f_equal; lia.
    + intros ([|n] & i & H & ->).
      * left. cbn in H. injection H as ->. f_equal; lia.
      * right. exists n, i. split; [exact H|]. f_equal; lia.
Qed.
Lemma len_exports : forall k calls, len (exports_of k calls) <= len calls.
Proof.
  induction calls as [|[k' i h|k' i] c IH]; cbn [exports_of]; rewrite ?len_nil, ?len_cons; try lia.
  destruct (kind_eqb k k'); rewrite ?len_cons; lia.
Qed.
Lemma len_imports_from : forall k calls seen, len (imports_from k seen calls) <= len seen + len calls.
Proof.
  induction calls as [|[k' i h|k' i] c IH]; intros seen; cbn [imports_from]; rewrite ?len_cons; try lia.
  - rewrite IH. lia.
  - destruct (kind_eqb k k'); [|rewrite IH; lia].
    rewrite IH. destruct (existsb (info_eqb i) seen); rewrite ?len_app, ?len_cons; change (len (@nil info)) with 0; lia.
Qed.
Lemma len_imports : forall k calls, len (imports_of k calls) <= len calls.
Proof. intros. unfold imports_of. rewrite len_imports_from. change (len (@nil info)) with 0. lia. Qed.

(** The table, described by the history. *)
Lemma table_in : forall calls o, len calls < 4294967296 ->
  In o (get_table (reg_run calls)) <->
  (exists k n i h, nth_error (exports_of k calls) n = Some (i, h) /\
    o = {| o_index := N.of_nat n; o_type := kind_code k; o_dir := 1; o_ns := fst i; o_name := snd i |})
  \/ (exists k n i, nth_error (imports_of k calls) n = Some i /\
    o = {| o_index := N.of_nat n; o_type := kind_code k; o_dir := 2; o_ns := fst i; o_name := snd i |}).
Proof.
  intros calls o Hc. unfold get_table. rewrite !in_app_iff.
  assert (HE : forall k, In o (convert_operations 0 (infos k (reg_run calls)) (kind_code k) 1) <->
    exists n i h, nth_error (exports_of k calls) n = Some (i, h) /\
    o = {| o_index := N.of_nat n; o_type := kind_code k; o_dir := 1; o_ns := fst i; o_name := snd i |}).
  { intros k. destruct (reg_inv calls k) as (_ & H2 & _). rewrite H2.
    rewrite convert_in by (rewrite len_map; pose proof (len_exports k calls); lia).
    split.
    - intros (n & i & H & ->). rewrite nth_error_map in H.
      destruct (nth_error (exports_of k calls) n) as [[i' h]|] eqn:En; [|discriminate].
      cbn in H. injection H as <-. exists n, i', h. auto.
    - intros (n & i & h & H & ->). exists n, i. rewrite nth_error_map, H. auto. }
  assert (HI : forall k, In o (convert_operations 0 (imports k (reg_run calls)) (kind_code k) 2) <->
    exists n i, nth_error (imports_of k calls) n = Some i /\
    o = {| o_index := N.of_nat n; o_type := kind_code k; o_dir := 2; o_ns := fst i; o_name := snd i |}).
  { intros k. destruct (reg_inv calls k) as (_ & _ & H3). rewrite H3.
    rewrite convert_in by (pose proof (len_imports k calls); lia).
    split; intros (n & i & H & ->); exists n, i; auto. }
  pose proof (HE RR) as E1. pose proof (HE FNF) as E2. pose proof (HE RS) as E3. pose proof (HE RC) as E4.
  pose proof (HI RR) as I1. pose proof (HI FNF) as I2. pose proof (HI RS) as I3. pose proof (HI RC) as I4.
  cbn [infos imports kind_code] in E1, E2, E3, E4, I1, I2, I3, I4.
  unfold OpRequestResponse, OpFireAndForget, OpRequestStream, OpRequestChannel, DirExport, DirImport.
  rewrite E1, E2, E3, E4, I1, I2, I3, I4. clear. split.
  - intros [H|[H|[H|[H|[H|[H|[H|H]]]]]]];
      [left; exists RR|left; exists FNF|left; exists RS|left; exists RC
      |right; exists RR|right; exists FNF|right; exists RS|right; exists RC]; exact H.
  - intros [(k & H)|(k & H)]; destruct k; auto 10.
Qed.
Lemma table_bounds : forall calls o, len calls < 4294967296 -> In o (get_table (reg_run calls)) ->
  o_type o < 256 /\ o_dir o < 256 /\ o_index o < 4294967296.
Proof.
  intros calls o Hc H. apply table_in in H; [|exact Hc].
  destruct H as [(k & n & i & h & H & ->)|(k & n & i & H & ->)]; cbn [o_type o_dir o_index].
  - assert (n < List.length (exports_of k calls))%nat by (apply nth_error_Some; congruence).
    pose proof (len_exports k calls). unfold len in *. destruct k; cbn [kind_code]; lia.
  - assert (n < List.length (imports_of k calls))%nat by (apply nth_error_Some; congruence).
    pose proof (len_imports k calls). unfold len in *. destruct k; cbn [kind_code]; lia.
Qed.

(** *** peers *)
Lemma peer_find_app : forall ty a b i, peer_find ty (a ++ b) i =
  if existsb (fun o => (o_dir o =? DirExport) && (o_type o =? ty) && info_eqb (o_ns o, o_name o) i) a
  then peer_find ty a i else peer_find ty b i.
Proof.
  induction a as [|o a IH]; intros; cbn [app peer_find existsb]; [reflexivity|].
  destruct ((o_dir o =? DirExport) && (o_type o =? ty) && info_eqb (o_ns o, o_name o) i); cbn [orb]; auto.
Qed.
Lemma exists_convert : forall l k ty ty' dir i,
  existsb (fun o => (o_dir o =? DirExport) && (o_type o =? ty) && info_eqb (o_ns o, o_name o) i)
    (convert_operations k l ty' dir)
  = (dir =? DirExport) && (ty' =? ty) && existsb (fun x => info_eqb x i) l.
Proof.
  induction l as [|x l IH]; intros; cbn [convert_operations existsb].
  - now rewrite andb_false_r.
  - rewrite IH. cbn [o_dir o_type o_ns o_name]. rewrite <- surjective_pairing.
    destruct (dir =? DirExport), (ty' =? ty); cbn [andb orb]; try reflexivity.
Qed.
Lemma peer_find_convert : forall l k ty i, k + len l < 4294967296 -> In i l ->
  exists n, peer_find ty (convert_operations k l ty DirExport) i = k + N.of_nat n
    /\ nth_error l n = Some i /\ (forall m, nth_error l m = Some i -> (n <= m)%nat).
Proof.
  induction l as [|x l IH]; intros k ty i Hl Hi; [destruct Hi|].
  rewrite len_cons in Hl. cbn [convert_operations peer_find o_dir o_type o_ns o_name o_index].
  rewrite <- surjective_pairing, !N.eqb_refl. cbn [andb].
  destruct (info_eqb x i) eqn:E.
  - apply info_eqb_eq in E. subst x. exists 0%nat. rewrite u32_small by lia.
    split; [lia|]. split; [reflexivity|]. intros; lia.
  - apply info_eqb_neq in E. destruct Hi as [C|Hi]; [contradiction|].
    destruct (IH (k + 1) ty i ltac:(lia) Hi) as (n & E1 & E2 & E3).
    exists (S n). split; [rewrite E1; lia|]. split; [exact E2|].
    intros [|m] Hm; [cbn in Hm; congruence|]. apply E3 in Hm. lia.
Qed.
