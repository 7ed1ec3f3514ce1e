(** Properties C27-C33: operation table, handler registry, instances, ports. *)
From Verif Require Import Base BaseFacts FramesModel FramesProofs InvokeModel InvokeProofs.
Local Ltac Zify.zify_post_hook ::= Z.div_mod_to_equations.

(** *** C27: serialise then read back *)
(** Size of the serialised table, as a plain sum. *)
Definition total_size (t : list oper) : N := 10 + ops_need t.
Definition oper_fields_ok (o : oper) : Prop := o_type o < 256 /\ o_dir o < 256 /\ o_index o < 2 ^ 32.

Theorem C27_table_round_trip_general : forall t, Forall oper_fields_ok t -> total_size t < 2 ^ 32 ->
  exists b, table_to_bytes t = Ok b /\ len b = total_size t
    /\ table_from_bytes b = Ok (map cut_oper t).
Proof.
  intros t H Hs. unfold total_size in *. change (2 ^ 32) with 4294967296 in *.
  assert (Hw : writes_pre (put Magic (put (be 2 1) (put (be 4 (u32 (len t))) (write_ops t))))
     (Magic ++ be 2 1 ++ be 4 (u32 (len t)) ++ concat (map (fun o => op_bytes (cut_oper o) []) t))
     (4 + (2 + (4 + ops_need t)))).
  { apply (wp_put Magic). apply (wp_put (be 2 1)). apply (wp_put (be 4 (u32 (len t)))).
    apply write_ops_wp. eapply Forall_impl; [|exact H]. intros o (A & B & _). auto. }
  destruct (Hw (zeros (table_size t))) as (rest & E & Hr).
  { rewrite len_zeros, table_size_need by exact Hs. lia. }
  eexists. split; [exact E|]. split.
  { rewrite len_app, Hr, len_zeros. now apply table_size_need. }
  assert (Hlt : len t <= ops_need t).
  { clear. induction t as [|o t IH]; cbn [ops_need]; rewrite ?len_cons; [rewrite len_nil|]; lia. }
  pose proof (read_table_bytes (map (fun o => (cut_oper o, [])) t) rest) as R.
  unfold table_bytes in R. rewrite !map_map, !len_map in R. cbn [fst snd] in R.
  rewrite u32_small by lia. rewrite R; [reflexivity| |lia].
  clear -H. induction H as [|o t (A & B & C) _ IH]; cbn [map]; constructor; auto.
  cbn [fst snd]. split; [|cbn; lia]. unfold oper_ok, cut_oper. cbn. rewrite !len_cut.
  repeat split; auto; lia.
Qed.
Theorem C27_table_round_trip : forall t, Forall oper_fields_ok t -> total_size t < 2 ^ 32 ->
  Forall (fun o => len (o_ns o) < 65536 /\ len (o_name o) < 65536) t ->
  exists b, table_to_bytes t = Ok b /\ table_from_bytes b = Ok t.
Proof.
  intros t H Hs Hn. destruct (C27_table_round_trip_general t H Hs) as (b & E1 & _ & E2).
  exists b. split; [exact E1|]. rewrite E2. f_equal. clear -Hn.
  induction Hn as [|o t [A B] _ IH]; cbn [map]; [reflexivity|]. rewrite IH. f_equal.
  unfold cut_oper, cut_name. rewrite !N.mod_small, !takeN_all by lia. now destruct o.
Qed.
(** Longer names are silently cut, to their length modulo 65536. *)
Theorem C27_long_names_refuted : forall o, oper_fields_ok o -> total_size [o] < 2 ^ 32 ->
  65536 <= len (o_ns o) ->
  exists b o', table_to_bytes [o] = Ok b /\ table_from_bytes b = Ok [o'] /\ o_ns o' <> o_ns o
    /\ exists tail, o_ns o = o_ns o' ++ tail.
Proof.
  intros o H Hs Hl. destruct (C27_table_round_trip_general [o]) as (b & E1 & _ & E2); auto.
  exists b, (cut_oper o). repeat split; auto; cbn [cut_oper o_ns].
  - intros C. apply (f_equal len) in C. rewrite len_cut in C. lia.
  - unfold cut_name. eexists. symmetry. apply take_drop.
Qed.
Example C27_example :
  let t := [ {| o_index := 0; o_type := 1; o_dir := 1; o_ns := [97; 98]; o_name := [99] |};
             {| o_index := 7; o_type := 4; o_dir := 2; o_ns := []; o_name := [100] |} ] in
  Forall oper_fields_ok t /\ total_size t < 2 ^ 32 /\
  table_to_bytes t = Ok [0; 119; 114; 115; 0; 1; 0; 0; 0; 2;
     1; 1; 0; 0; 0; 0; 0; 2; 97; 98; 0; 1; 99; 0; 0;
     4; 2; 0; 0; 0; 7; 0; 0; 0; 1; 100; 0; 0]
  /\ table_from_bytes [0; 119; 114; 115; 0; 1; 0; 0; 0; 2;
     1; 1; 0; 0; 0; 0; 0; 2; 97; 98; 0; 1; 99; 0; 0;
     4; 2; 0; 0; 0; 7; 0; 0; 0; 1; 100; 0; 0] = Ok t.
Proof. cbv zeta. split; [repeat constructor|]. vm_compute. auto. Qed.
Print Assumptions C27_table_round_trip_general.
Print Assumptions C27_table_round_trip.
Print Assumptions C27_long_names_refuted.

(** *** C28: foreign, extended and truncated input *)
Theorem C28_wrong_magic_rejected : forall m rest, len m = 4 -> m <> [0; 119; 114; 115] ->
  table_from_bytes (m ++ rest) = Err "invalid magic number".
Proof.
  intros m rest Hm Hne. unfold table_from_bytes. rewrite split_at_ok by exact Hm. cbn [bind fst snd].
  destruct (list_eq_dec N.eq_dec m Magic); [contradiction|reflexivity].
Qed.
Theorem C28_wrong_version_rejected : forall v rest, v < 65536 -> v <> 1 ->
  table_from_bytes ([0; 119; 114; 115] ++ be 2 v ++ rest) = Err "Unknown operation table version".
Proof.
  intros v rest Hv Hne. unfold table_from_bytes. rewrite split_at_ok by reflexivity. cbn [bind fst snd].
  destruct (list_eq_dec N.eq_dec [0; 119; 114; 115] Magic) as [_|C]; [|elim C; reflexivity].
  rewrite get_be_app by exact Hv. cbn [bind fst snd].
  destruct (N.eqb_spec v 1); [contradiction|reflexivity].
Qed.
Theorem C28_reserved_fields_skipped : forall l rest,
  Forall (fun x => oper_ok (fst x) /\ len (snd x) < 65534) l -> len l < 2 ^ 32 ->
  table_from_bytes (table_bytes l ++ rest) = Ok (map fst l).
Proof. exact read_table_bytes. Qed.
(** Whatever is read starts with its type byte. *)
Lemma read_oper_type : forall x y o z, read_oper (x :: y) = Ok (o, z) -> o_type o = x.
Proof.
  intros x y o z H. unfold read_oper in H.
  change (x :: y) with ([x] ++ y) in H. rewrite (get_be_exact 1 [x]) in H by reflexivity.
  cbn [bind fst snd] in H.
  destruct (get_be 1 y) as [d| |]; cbn [bind] in H; try discriminate.
  destruct (get_be 4 (snd d)) as [i| |]; cbn [bind] in H; try discriminate.
  destruct (get_be 2 (snd i)) as [nl| |]; cbn [bind] in H; try discriminate.
  destruct (split_at (fst nl) (snd nl)) as [ns| |]; cbn [bind] in H; try discriminate.
  destruct (get_be 2 (snd ns)) as [ol| |]; cbn [bind] in H; try discriminate.
  destruct (split_at (fst ol) (snd ol)) as [op| |]; cbn [bind] in H; try discriminate.
  destruct (get_be 2 (snd op)) as [rl| |]; cbn [bind] in H; try discriminate.
  destruct (slice_from (u16 (2 + fst rl)) (snd op)) as [rest| |]; cbn [bind] in H; try discriminate.
  injection H as <- _. cbn [o_type]. unfold unbe. cbn [fold_left]. lia.
Qed.
(** The two largest reserved blocks are not skipped: the 16-bit sum wraps. *)
Theorem C28_large_reserved_refuted : forall o1 o2 r, oper_ok o1 -> oper_ok o2 -> o_type o2 <> 255 ->
  65534 <= len r < 65536 ->
  table_from_bytes (table_bytes [(o1, r); (o2, [])]) <> Ok [o1; o2].
Proof.
  intros o1 o2 r (H1 & H2 & H3 & H4 & H5) _ Hne Hr. change (2 ^ 32) with 4294967296 in H3.
  unfold table_from_bytes, table_bytes. rewrite split_at_ok by reflexivity. cbn [bind fst snd].
  destruct (list_eq_dec N.eq_dec Magic Magic) as [_|C]; [|congruence].
  rewrite get_be_app by reflexivity. cbn [bind fst snd]. change (1 =? 1) with true. cbv iota.
  rewrite get_be_app by reflexivity. cbn [bind fst snd]. change (N.to_nat (len [(o1, r); (o2, [])])) with 2%nat.
  cbn [map concat fst snd]. unfold op_bytes at 1. rewrite <- !app_assoc.
  change ([o_type o1; o_dir o1] ++ ?x) with ([o_type o1] ++ [o_dir o1] ++ x).
  cbn [read_opers]. unfold read_oper at 1.
  rewrite (get_be_exact 1 [o_type o1]) by reflexivity. cbn [bind fst snd].
  rewrite (get_be_exact 1 [o_dir o1]) by reflexivity. cbn [bind fst snd].
  rewrite get_be_app by exact H3. cbn [bind fst snd].
  rewrite get_be_app by exact H4. cbn [bind fst snd].
  rewrite split_at_ok by reflexivity. cbn [bind fst snd].
  rewrite get_be_app by exact H5. cbn [bind fst snd].
  rewrite split_at_ok by reflexivity. cbn [bind fst snd].
  rewrite get_be_app by (change (256 ^ N.of_nat 2) with 65536; lia). cbn [bind fst snd].
  set (rest := r ++ op_bytes o2 [] ++ []).
  assert (G : exists y, slice_from (u16 (2 + len r)) (be 2 (len r) ++ rest) = Ok (255 :: y)
           \/ slice_from (u16 (2 + len r)) (be 2 (len r) ++ rest) = Panic).
  { unfold slice_from. destruct (u16 (2 + len r) <=? len (be 2 (len r) ++ rest)); [|exists []; auto].
    assert (Hc : len r = 65534 \/ len r = 65535) by lia. destruct Hc as [Hc|Hc]; rewrite Hc.
    - exists (254 :: rest). left. reflexivity.
    - exists rest. left. reflexivity. }
  destruct G as (y & [-> | ->]); [|cbn [bind]; discriminate].
  cbn [bind fst snd]. intros C.
  destruct (read_oper (255 :: y)) as [[o z]| |] eqn:E; cbn [bind fst snd] in C; try discriminate.
  apply read_oper_type in E.
  apply (f_equal (fun r => match r with Ok l => nth_error l 1 | _ => None end)) in C.
  cbn [nth_error] in C. congruence.
Qed.
Theorem C28_truncated_table_panics : forall t p q, Forall oper_ok t -> len t < 2 ^ 32 ->
  table_bytes (map (fun o => (o, [])) t) = p ++ q -> q <> [] -> table_from_bytes p = Panic.
Proof.
  intros t p q Ht Hl H Hq. symmetry in H. unfold table_bytes in H. rewrite map_map, len_map in H. cbn [fst snd] in H.
  unfold table_from_bytes.
  destruct (split_at_prefix 4 _ _ _ _ H eq_refl) as [->|(p1 & Q1 & ->)]; [reflexivity|]. cbn [bind fst snd].
  destruct (list_eq_dec N.eq_dec Magic Magic) as [_|C]; [|congruence].
  destruct (get_be_prefix 2 _ _ _ _ Q1 eq_refl) as [[-> _]|(p2 & _ & Q2 & ->)]; [reflexivity|]. cbn [bind fst snd].
  change (unbe (be 2 1) =? 1) with true. cbv iota.
  destruct (get_be_prefix 4 _ _ _ _ Q2 eq_refl) as [[-> _]|(p3 & _ & Q3 & ->)]; [reflexivity|]. cbn [bind fst snd].
  rewrite unbe_be_small by exact Hl. rewrite len_length. now apply read_opers_prefix with (q := q).
Qed.
(** Reading any input yields exactly as many operations as it announces. *)
Theorem C28_count_respected : forall n body t, n < 2 ^ 32 ->
  table_from_bytes ([0; 119; 114; 115] ++ be 2 1 ++ be 4 n ++ body) = Ok t -> len t = n.
Proof.
  intros n body t Hn H. unfold table_from_bytes in H. rewrite split_at_ok in H by reflexivity.
  cbn [bind fst snd] in H.
  destruct (list_eq_dec N.eq_dec [0; 119; 114; 115] Magic) as [_|C]; [|elim C; reflexivity].
  rewrite get_be_app in H by reflexivity. cbn [bind fst snd] in H. change (1 =? 1) with true in H. cbv iota in H.
  rewrite get_be_app in H by exact Hn. cbn [bind fst snd] in H.
  enough (G : forall k b l, read_opers k b = Ok l -> List.length l = k).
  { apply G in H. unfold len. lia. }
  clear. induction k as [|k IH]; intros b l H; cbn [read_opers] in H.
  - now injection H as <-.
  - destruct (read_oper b) as [[o z]| |]; cbn [bind fst snd] in H; try discriminate.
    destruct (read_opers k z) as [l'| |] eqn:E; cbn [bind] in H; try discriminate.
    injection H as <-. cbn [List.length]. f_equal. eauto.
Qed.
Example C28_example :
  let o := {| o_index := 3; o_type := 2; o_dir := 1; o_ns := [97]; o_name := [98] |} in
  oper_ok o
  /\ table_bytes [(o, [5; 6; 7]); (o, [])]
     = [0; 119; 114; 115; 0; 1; 0; 0; 0; 2; 2; 1; 0; 0; 0; 3; 0; 1; 97; 0; 1; 98; 0; 3; 5; 6; 7;
        2; 1; 0; 0; 0; 3; 0; 1; 97; 0; 1; 98; 0; 0]
  /\ table_from_bytes (table_bytes [(o, [5; 6; 7]); (o, [])]) = Ok [o; o]
  /\ table_from_bytes [0; 119; 114; 116; 0; 1] = Err "invalid magic number"
  /\ table_from_bytes [0; 119; 114; 115; 0; 2] = Err "Unknown operation table version"
  /\ table_from_bytes [0; 119; 114; 115; 0; 1; 0; 0; 0; 1; 2; 1; 0; 0; 0; 3; 0; 1; 97; 0; 1; 98; 0] = Panic.
Proof. cbv zeta. split; [repeat split; reflexivity|]. vm_compute. auto. Qed.
Print Assumptions C28_wrong_magic_rejected.
Print Assumptions C28_wrong_version_rejected.
Print Assumptions C28_reserved_fields_skipped.
Print Assumptions C28_large_reserved_refuted.
Print Assumptions C28_truncated_table_panics.
Print Assumptions C28_count_respected.

(** *** C29: exported handlers are dispatched by the advertised index *)
Theorem C29_advertised_export_dispatches : forall calls o, len calls < 2 ^ 32 ->
  In o (get_table (reg_run calls)) -> o_dir o = 1 ->
  exists k h, o_type o = kind_code k /\ In (CExport k (o_ns o, o_name o) h) calls
    /\ do_get k (reg_run calls) (o_index o) = Some h
    /\ nth_error (exports_of k calls) (N.to_nat (o_index o)) = Some ((o_ns o, o_name o), h).
Proof.
  intros calls o Hc Hin Hd. change (2 ^ 32) with 4294967296 in Hc.
  apply table_in in Hin; [|exact Hc].
  destruct Hin as [(k & n & i & h & H & ->)|(k & n & i & H & ->)]; [|discriminate Hd].
  exists k, h. cbn [o_type o_ns o_name o_index]. rewrite Nat2N.id, <- surjective_pairing.
  split; [reflexivity|]. split.
  { apply nth_error_In in H. clear Hc Hd n. induction calls as [|[k' i' h'|k' i'] c IH]; cbn [exports_of] in H.
    - destruct H.
    - destruct (kind_eqb k k') eqn:Ek; [|right; auto].
      destruct H as [E|H]; [|right; auto]. left. injection E as -> ->. destruct k, k'; try discriminate; reflexivity.
    - right; auto. }
  split; [|exact H]. rewrite get_result, get_handler_spec.
  - rewrite Nat2N.id, nth_error_map, H. reflexivity.
  - rewrite len_map. pose proof (len_exports k calls). lia.
Qed.
(** Every export is advertised, at its position among the exports of its kind. *)
Theorem C29_every_export_advertised : forall c1 k i h c2, len (c1 ++ CExport k i h :: c2) < 2 ^ 32 ->
  let s := reg_run (c1 ++ CExport k i h :: c2) in
  let idx := len (exports_of k c1) in
  In {| o_index := idx; o_type := kind_code k; o_dir := 1; o_ns := fst i; o_name := snd i |} (get_table s)
  /\ do_get k s idx = Some h.
Proof.
  intros c1 k i h c2 Hc s idx. change (2 ^ 32) with 4294967296 in Hc.
  assert (Hn : nth_error (exports_of k (c1 ++ CExport k i h :: c2)) (List.length (exports_of k c1)) = Some (i, h)).
  { rewrite exports_of_app. cbn [exports_of]. replace (kind_eqb k k) with true by now destruct k.
    rewrite nth_error_app2 by lia. now rewrite Nat.sub_diag. }
  split.
  - apply table_in; [exact Hc|]. left. exists k, (List.length (exports_of k c1)), i, h. auto.
  - unfold s. rewrite get_result, get_handler_spec.
    + unfold idx, len. rewrite Nat2N.id, nth_error_map, Hn. reflexivity.
    + rewrite len_map. pose proof (len_exports k (c1 ++ CExport k i h :: c2)). lia.
Qed.
Theorem C29_unadvertised_ids_select_nothing : forall calls k id, len calls < 2 ^ 32 ->
  (forall o, In o (get_table (reg_run calls)) -> o_dir o = 1 -> o_type o = kind_code k -> o_index o <> id) ->
  do_get k (reg_run calls) id = None.
Proof.
  intros calls k id Hc H. change (2 ^ 32) with 4294967296 in Hc.
  rewrite get_result, get_handler_spec by (rewrite len_map; pose proof (len_exports k calls); lia).
  rewrite nth_error_map. destruct (nth_error (exports_of k calls) (N.to_nat id)) as [[i h]|] eqn:E; [|reflexivity].
  exfalso. refine (H {| o_index := id; o_type := kind_code k; o_dir := 1; o_ns := fst i; o_name := snd i |} _ _ _ _);
    try reflexivity.
  apply table_in; [exact Hc|]. left. exists k, (N.to_nat id), i, h. rewrite N2Nat.id. auto.
Qed.
Example C29_example :
  let calls := [CExport RR ([97], [98]) 10; CExport RC ([97], [98]) 11; CImport RR ([99], [99]); CExport RR ([97], [99]) 12] in
  map (fun o => (o_type o, o_dir o, o_index o, o_name o)) (get_table (reg_run calls))
    = [(1, 1, 0, [98]); (1, 1, 1, [99]); (4, 1, 0, [98]); (1, 2, 0, [99])]
  /\ do_get RR (reg_run calls) 1 = Some 12 /\ do_get RC (reg_run calls) 0 = Some 11
  /\ do_get RR (reg_run calls) 2 = None /\ do_get FNF (reg_run calls) 0 = None.
Proof. vm_compute. auto. Qed.
Print Assumptions C29_advertised_export_dispatches.
Print Assumptions C29_every_export_advertised.
Print Assumptions C29_unadvertised_ids_select_nothing.

(** *** C30: import indexes *)
Definition import_after (calls : list reg_call) (k : kind) (i : info) : N :=
  fst (do_import k i (reg_run calls)).

(** Names already in the list keep their position when more calls follow. *)
Lemma imports_grow : forall k c seen, exists more, imports_from k seen c = seen ++ more.
Proof.
  induction c as [|[k' i h|k' i] c IH]; intros seen; cbn [imports_from].
  - exists []. now rewrite app_nil_r.
  - apply IH.
  - destruct (kind_eqb k k'); [|apply IH]. destruct (existsb (info_eqb i) seen); [apply IH|].
    destruct (IH (seen ++ [i])) as (m & ->). exists ([i] ++ m). now rewrite app_assoc.
Qed.
Lemma imports_nodup : forall k c seen, NoDup seen -> NoDup (imports_from k seen c).
Proof.
  induction c as [|[k' i h|k' i] c IH]; intros seen H; cbn [imports_from]; auto.
  destruct (kind_eqb k k'); auto. apply IH. destruct (existsb (info_eqb i) seen) eqn:E; [exact H|].
  apply NoDup_rev in H. rewrite <- (rev_involutive (seen ++ [i])). apply NoDup_rev.
  rewrite rev_app_distr. cbn. constructor; [|exact H].
  intros C. apply in_rev in C. apply existsb_in in C. congruence.
Qed.
(** The index returned is the position of the name in the list afterwards. *)
Lemma import_position : forall calls k i, len calls < 4294967295 ->
  exists n, import_after calls k i = N.of_nat n
    /\ nth_error (imports_of k (calls ++ [CImport k i])) n = Some i.
Proof.
  intros calls k i Hc. unfold import_after. rewrite import_result.
  unfold imports_of at 2. rewrite imports_from_app. cbn [imports_from]. fold (imports_of k calls).
  replace (kind_eqb k k) with true by now destruct k.
  pose proof (len_imports k calls). unfold import_in.
  destruct (find_info 0 (imports_of k calls) i) as [r|] eqn:E.
  - destruct (find_info_some (imports_of k calls) 0 i r ltac:(lia) E) as (n & -> & Hn & _).
    exists n. cbn [fst]. split; [lia|].
    destruct (existsb (info_eqb i) (imports_of k calls)) eqn:Ex; [exact Hn|].
    apply nth_error_In in Hn. apply existsb_in in Hn. congruence.
  - exists (List.length (imports_of k calls)). cbn [fst]. unfold u32. rewrite N.mod_small by lia.
    split; [reflexivity|]. apply find_info_none in E.
    destruct (existsb (info_eqb i) (imports_of k calls)) eqn:Ex; [apply existsb_in in Ex; contradiction|].
    rewrite nth_error_app2 by lia. now rewrite Nat.sub_diag.
Qed.
Lemma import_later : forall calls k i later, len calls < 4294967295 ->
  exists n, import_after calls k i = N.of_nat n
    /\ nth_error (imports_of k (calls ++ CImport k i :: later)) n = Some i.
Proof.
  intros calls k i later Hc. destruct (import_position calls k i Hc) as (n & E & Hn).
  exists n. split; [exact E|].
  change (CImport k i :: later) with ([CImport k i] ++ later). rewrite app_assoc.
  unfold imports_of in *. rewrite imports_from_app.
  destruct (imports_grow k later (imports_from k [] (calls ++ [CImport k i]))) as (m & ->).
  rewrite nth_error_app1; [exact Hn|]. apply nth_error_Some. congruence.
Qed.
Theorem C30_reimport_same_index : forall calls k i later,
  len (calls ++ CImport k i :: later) < 2 ^ 32 - 1 ->
  import_after (calls ++ CImport k i :: later) k i = import_after calls k i.
Proof.
  intros calls k i later Hc. change (2 ^ 32 - 1) with 4294967295 in Hc.
  rewrite len_app, len_cons in Hc.
  destruct (import_later calls k i (later ++ [CImport k i]) ltac:(lia)) as (n & -> & Hn).
  destruct (import_position (calls ++ CImport k i :: later) k i) as (m & -> & Hm).
  { rewrite len_app, len_cons. lia. }
  rewrite <- app_assoc in Hm. cbn [app] in Hm. f_equal.
  eapply NoDup_nth_error.
  - apply (imports_nodup k (calls ++ CImport k i :: later ++ [CImport k i]) []). constructor.
  - apply nth_error_Some. unfold imports_of in *. congruence.
  - unfold imports_of in *. congruence.
Qed.
Theorem C30_different_names_different_indexes : forall calls k i j later,
  len (calls ++ CImport k i :: later) < 2 ^ 32 - 1 ->
  import_after (calls ++ CImport k i :: later) k j = import_after calls k i -> i = j.
Proof.
  intros calls k i j later Hc H. change (2 ^ 32 - 1) with 4294967295 in Hc.
  rewrite len_app, len_cons in Hc.
  destruct (import_later calls k i (later ++ [CImport k j]) ltac:(lia)) as (n & E & Hn).
  destruct (import_position (calls ++ CImport k i :: later) k j) as (m & E' & Hm).
  { rewrite len_app, len_cons. lia. }
  rewrite <- app_assoc in Hm. cbn [app] in Hm.
  assert (n = m) by (rewrite E, E' in H; lia). subst m. congruence.
Qed.
(** The table advertises exactly the imported operations, at these indexes. *)
Theorem C30_imports_advertised : forall calls o, len calls < 2 ^ 32 - 1 ->
  In o (get_table (reg_run calls)) /\ o_dir o = 2 <->
  exists k, o_type o = kind_code k /\ o_dir o = 2 /\ In (CImport k (o_ns o, o_name o)) calls
    /\ o_index o = import_after calls k (o_ns o, o_name o).
Proof.
  intros calls o Hc. change (2 ^ 32 - 1) with 4294967295 in Hc.
  assert (HN : forall k, NoDup (imports_of k calls)) by (intros; apply imports_nodup; constructor).
  assert (HIn : forall k i, In i (imports_of k calls) <-> In (CImport k i) calls).
  { intros k i. unfold imports_of.
    assert (G : forall c seen, In i (imports_from k seen c) <-> In i seen \/ In (CImport k i) c).
    { clear. induction c as [|[k' i' h|k' i'] c IH]; intros seen; cbn [imports_from In].
      - tauto.
      - rewrite IH. intuition congruence.
      - destruct (kind_eqb k k') eqn:Ek.
        + rewrite IH. assert (k = k') by (destruct k, k'; try discriminate; reflexivity). subst k'.
          destruct (existsb (info_eqb i') seen) eqn:Ex.
          * apply existsb_in in Ex. intuition congruence.
          * rewrite in_app_iff. cbn [In]. intuition congruence.
        + rewrite IH. assert (k <> k') by (intros ->; destruct k'; discriminate). intuition congruence. }
    rewrite G. cbn [In]. tauto. }
  assert (HP : forall k i n, nth_error (imports_of k calls) n = Some i -> import_after calls k i = N.of_nat n).
  { intros k i n Hn. unfold import_after. rewrite import_result. unfold import_in.
    pose proof (len_imports k calls).
    destruct (find_info 0 (imports_of k calls) i) as [r|] eqn:E.
    - destruct (find_info_some (imports_of k calls) 0 i r ltac:(lia) E) as (m & -> & Hm & _). cbn [fst].
      rewrite N.add_0_l. f_equal. eapply NoDup_nth_error; [apply (HN k)| |congruence].
      apply nth_error_Some. congruence.
    - apply find_info_none in E. apply nth_error_In in Hn. contradiction. }
  rewrite table_in by lia. split.
  - intros [[(k & n & i & h & H & ->)|(k & n & i & H & ->)] Hd]; [discriminate Hd|].
    exists k. cbn [o_type o_dir o_ns o_name o_index]. rewrite <- surjective_pairing.
    repeat split; auto.
    + apply HIn. eapply nth_error_In; eauto.
    + symmetry. now apply HP.
  - intros (k & Ht & Hd & Hi & Hx). split; [|exact Hd]. right.
    apply HIn in Hi. apply In_nth_error in Hi. destruct Hi as [n Hn].
    exists k, n, (o_ns o, o_name o). split; [exact Hn|]. rewrite (HP _ _ _ Hn) in Hx.
    destruct o; cbn [fst snd] in *; cbn in *; congruence.
Qed.
(** Other kinds and exports make no difference to an import; imports make no
    difference to handlers. *)
Definition is_import (k : kind) (c : reg_call) : bool :=
  match c with CImport k' _ => kind_eqb k k' | _ => false end.
Definition is_export (k : kind) (c : reg_call) : bool :=
  match c with CExport k' _ _ => kind_eqb k k' | _ => false end.
Theorem C30_kinds_independent : forall calls k i,
  import_after calls k i = import_after (filter (is_import k) calls) k i
  /\ (forall id, do_get k (reg_run calls) id = do_get k (reg_run (filter (is_export k) calls)) id).
Proof.
  intros calls k i. split.
  - unfold import_after. rewrite !import_result. do 2 f_equal. unfold imports_of. generalize (@nil info).
    induction calls as [|[k' i' h|k' i'] c IH]; intros seen; cbn [filter is_import imports_from]; auto.
    destruct (kind_eqb k k') eqn:E; cbn [imports_from]; rewrite ?E; auto.
  - intros id. rewrite !get_result. f_equal. f_equal.
    induction calls as [|[k' i' h|k' i'] c IH]; cbn [filter is_export exports_of]; auto.
    destruct (kind_eqb k k') eqn:E; cbn [exports_of]; rewrite ?E; auto. now rewrite IH.
Qed.
Example C30_example :
  let a := ([97], [98]) in let b := ([97], [99]) in
  import_after [] RR a = 0 /\ import_after [CImport RR a; CImport FNF b; CExport RR b 1] RR b = 1
  /\ import_after [CImport RR a; CImport RR b] RR a = 0
  /\ import_after [CImport RR a; CImport RR b] RS b = 0.
Proof. vm_compute. auto. Qed.
Print Assumptions C30_reimport_same_index.
Print Assumptions C30_different_names_different_indexes.
Print Assumptions C30_imports_advertised.
Print Assumptions C30_kinds_independent.

(** *** C31: resolving a peer's operation through its serialised table *)
Lemma peer_find_table : forall calls k i, len calls < 4294967296 ->
  peer_import k (get_table (reg_run calls)) i
  = if existsb (fun x => info_eqb x i) (map fst (exports_of k calls))
    then peer_find (kind_code k) (convert_operations 0 (map fst (exports_of k calls)) (kind_code k) DirExport) i
    else 0.
Proof.
  intros calls k i Hc. destruct (reg_inv calls k) as (_ & H2 & _). rewrite <- H2.
  unfold peer_import, get_table. rewrite !peer_find_app, !exists_convert.
  assert (HL : forall l ty dir, existsb (fun o => (o_dir o =? DirExport) && (o_type o =? ty) && info_eqb (o_ns o, o_name o) i) l = false ->
     peer_find ty l i = dir -> dir = 0).
  { clear. induction l as [|o l IH]; intros ty dir H E; cbn [existsb peer_find] in *; [now symmetry|].
    apply orb_false_iff in H. destruct H as [H1 H3]. rewrite H1 in E. eauto. }
  assert (HZ : peer_find match k with RR => OpRequestResponse | FNF => OpFireAndForget
                       | RS => OpRequestStream | RC => OpRequestChannel end
                (convert_operations 0 (rc_imports (reg_run calls)) OpRequestChannel DirImport) i = 0).
  { eapply HL; [|reflexivity]. rewrite exists_convert. reflexivity. }
  rewrite HZ. clear HL HZ.
  destruct k; cbn [infos kind_code];
    unfold OpRequestResponse, OpFireAndForget, OpRequestStream, OpRequestChannel, DirExport, DirImport;
    repeat match goal with
    | |- context [N.eqb (N.pos ?a) (N.pos ?b)] =>
        let v := eval vm_compute in (N.eqb (N.pos a) (N.pos b)) in change (N.eqb (N.pos a) (N.pos b)) with v
    end; cbn [andb]; reflexivity.
Qed.
Theorem C31_peer_operation_resolves : forall calls b k i h n,
  len calls < 2 ^ 32 -> total_size (get_table (reg_run calls)) < 2 ^ 32 ->
  Forall (fun o => len (o_ns o) < 65536 /\ len (o_name o) < 65536) (get_table (reg_run calls)) ->
  table_to_bytes (get_table (reg_run calls)) = Ok b ->
  nth_error (exports_of k calls) n = Some (i, h) ->
  (forall m j h', nth_error (exports_of k calls) m = Some (j, h') -> j = i -> (n <= m)%nat) ->
  exists t, table_from_bytes b = Ok t /\
    peer_import k t i = N.of_nat n /\ do_get k (reg_run calls) (peer_import k t i) = Some h.
Proof.
  intros calls b k i h n Hc Hs Hn Hb He Hm. change (2 ^ 32) with 4294967296 in Hc.
  destruct (C27_table_round_trip (get_table (reg_run calls))) as (b' & E1 & E2); auto.
  { apply Forall_forall. intros o Ho. apply table_bounds in Ho; [|exact Hc]. exact Ho. }
  assert (b' = b) by congruence. subst b'. exists (get_table (reg_run calls)). split; [exact E2|].
  rewrite peer_find_table by exact Hc.
  assert (Hin : In i (map fst (exports_of k calls))).
  { apply in_map_iff. exists (i, h). split; [reflexivity|]. eapply nth_error_In; eauto. }
  replace (existsb (fun x => info_eqb x i) (map fst (exports_of k calls))) with true.
  2:{ symmetry. apply existsb_exists. exists i. split; [exact Hin|apply info_eqb_refl]. }
  destruct (peer_find_convert (map fst (exports_of k calls)) 0 (kind_code k) i) as (m & -> & Hm1 & Hm2); auto.
  { rewrite len_map. pose proof (len_exports k calls). lia. }
  assert (m = n).
  { rewrite nth_error_map in Hm1. destruct (nth_error (exports_of k calls) m) as [[j h']|] eqn:Em; [|discriminate].
    cbn in Hm1. injection Hm1 as ->. specialize (Hm m i h' Em eq_refl).
    specialize (Hm2 n). rewrite nth_error_map, He in Hm2. specialize (Hm2 eq_refl). lia. }
  subst m. rewrite N.add_0_l. split; [reflexivity|].
  rewrite get_result, get_handler_spec by (rewrite len_map; pose proof (len_exports k calls); lia).
  rewrite Nat2N.id, nth_error_map, He. reflexivity.
Qed.
(** An operation the peer does not export resolves to index 0 - the same as its
    first operation of that kind. *)
Theorem C31_unknown_operation_aliases_first : forall calls k i,
  len calls < 2 ^ 32 -> ~ In i (map fst (exports_of k calls)) ->
  peer_import k (get_table (reg_run calls)) i = 0 /\
  (forall j h rest, exports_of k calls = (j, h) :: rest ->
     peer_import k (get_table (reg_run calls)) j = 0 /\ do_get k (reg_run calls) 0 = Some h).
Proof.
  intros calls k i Hc Hi. change (2 ^ 32) with 4294967296 in Hc. split.
  - rewrite peer_find_table by exact Hc.
    destruct (existsb (fun x => info_eqb x i) (map fst (exports_of k calls))) eqn:E; [|reflexivity].
    apply existsb_exists in E. destruct E as (x & Hx & Ex). apply info_eqb_eq in Ex. subst x. contradiction.
  - intros j h rest E. split.
    + rewrite peer_find_table by exact Hc. rewrite E. cbn [map fst existsb convert_operations peer_find].
      cbn [o_dir o_type o_ns o_name o_index]. rewrite <- surjective_pairing, !N.eqb_refl, info_eqb_refl. reflexivity.
    + rewrite get_result, get_handler_spec by (rewrite len_map; pose proof (len_exports k calls); lia).
      now rewrite E.
Qed.
Example C31_example :
  let calls := [CExport RS ([97], [98]) 10; CExport RR ([97], [98]) 11; CExport RR ([97], [99]) 12; CExport RR ([97], [99]) 13] in
  peer_import RR (get_table (reg_run calls)) ([97], [99]) = 1
  /\ do_get RR (reg_run calls) 1 = Some 12
  /\ peer_import RR (get_table (reg_run calls)) ([120], [120]) = 0
  /\ peer_import RR (get_table (reg_run calls)) ([97], [98]) = 0.
Proof. vm_compute. auto. Qed.
Print Assumptions C31_peer_operation_resolves.
Print Assumptions C31_unknown_operation_aliases_first.

(** *** C32: live instances *)
(** Specification: what a handle stands for after a history. *)
Fixpoint stands_for (rev_calls : list inst_call) (h : N) : option N :=
  match rev_calls with
  | [] => None
  | IPut a x :: c => if a =? h then Some x else stands_for c h
  | IRemove id :: c => if id =? h then None else stands_for c h
  | IGet _ :: c => stands_for c h
  end.
Definition live_after (calls : list inst_call) (h : N) : option N := stands_for (rev calls) h.
(** Result of the last call. *)
Definition inst_last (calls : list inst_call) (c : inst_call) : inst_result :=
  snd (inst_step (fst (inst_run [] calls)) c).

Lemma inst_get_del : forall m id h, inst_get (inst_del m id) h = if id =? h then None else inst_get m h.
Proof.
  induction m as [|[a x] m IH]; intros id h; cbn [inst_del filter inst_get fst negb].
  - now destruct (id =? h).
  - destruct (N.eqb_spec a id) as [->|Ha]; cbn [negb].
    + fold (inst_del m id). rewrite IH. destruct (N.eqb_spec id h); reflexivity.
    + cbn [inst_get]. fold (inst_del m id). rewrite IH.
      destruct (N.eqb_spec a h) as [->|]; [|reflexivity]. destruct (N.eqb_spec id h); [congruence|reflexivity].
Qed.
Lemma inst_run_app : forall l1 m c, fst (inst_run m (l1 ++ [c])) = fst (inst_step (fst (inst_run m l1)) c).
Proof.
  induction l1 as [|a l1 IH]; intros m c; cbn [app inst_run].
  - cbn [fst]. now destruct (inst_step m c) as [m1 r].
  - destruct (inst_step m a) as [m1 r]. specialize (IH m1 c).
    destruct (inst_run m1 (l1 ++ [c])) as [m2 rs]. destruct (inst_run m1 l1) as [m3 rs3]. exact IH.
Qed.
Lemma inst_inv : forall calls h, inst_get (fst (inst_run [] calls)) h = live_after calls h.
Proof.
  induction calls as [|c calls IH] using rev_ind; intros h; [reflexivity|].
  rewrite inst_run_app. unfold live_after. rewrite rev_app_distr. cbn [rev app stands_for].
  fold (live_after calls h).
  destruct c as [a x|id|id]; cbn [inst_step].
  - cbn [fst inst_get]. destruct (N.eqb_spec a h); [reflexivity|].
    rewrite inst_get_del, IH. destruct (N.eqb_spec a h); [congruence|reflexivity].
  - apply IH.
  - destruct (inst_get (fst (inst_run [] calls)) id) eqn:E; cbn [fst].
    + now rewrite inst_get_del, IH.
    + rewrite IH in E. destruct (N.eqb_spec id h) as [->|]; [now rewrite IH, E|apply IH].
Qed.
(** Get and Remove answer by the history alone. *)
Theorem C32_get_and_remove_follow_history : forall calls h,
  inst_last calls (IGet h) = RInst (live_after calls h)
  /\ inst_last calls (IRemove h) = RInst (live_after calls h).
Proof.
  intros calls h. unfold inst_last. cbn [inst_step]. rewrite <- inst_inv.
  split; [reflexivity|]. now destruct (inst_get (fst (inst_run [] calls)) h).
Qed.
(** A handle is good from its Put until its Remove, whatever else happens, if
    the allocator does not return the address of a live object. *)
Theorem C32_handle_until_removed : forall c1 a x c2,
  (forall y, ~ In (IPut a y) c2) -> ~ In (IRemove a) c2 ->
  inst_last c1 (IPut a x) = RHandle a
  /\ inst_last (c1 ++ IPut a x :: c2) (IGet a) = RInst (Some x)
  /\ inst_last (c1 ++ IPut a x :: c2) (IRemove a) = RInst (Some x)
  /\ inst_last (c1 ++ IPut a x :: c2 ++ [IRemove a]) (IRemove a) = RInst None
  /\ inst_last (c1 ++ IPut a x :: c2 ++ [IRemove a]) (IGet a) = RInst None.
Proof.
  intros c1 a x c2 Hp Hr. split; [reflexivity|].
  assert (E : live_after (c1 ++ IPut a x :: c2) a = Some x).
  { unfold live_after. rewrite rev_app_distr. cbn [rev]. rewrite <- !app_assoc. cbn [app].
    assert (G : forall l rest, (forall y, ~ In (IPut a y) l) -> ~ In (IRemove a) l ->
       stands_for (l ++ rest) a = stands_for rest a).
    { clear. induction l as [|[b y|b|b] l IH]; intros rest H1 H2; cbn [app stands_for]; auto.
      - destruct (N.eqb_spec b a) as [->|]; [elim (H1 y); now left|]. apply IH; [intros z Hz; apply (H1 z); now right|intros Hz; apply H2; now right].
      - apply IH; [intros z Hz; apply (H1 z); now right|intros Hz; apply H2; now right].
      - destruct (N.eqb_spec b a) as [->|]; [elim H2; now left|]. apply IH; [intros z Hz; apply (H1 z); now right|intros Hz; apply H2; now right]. }
    rewrite G.
    - cbn [stands_for]. now rewrite N.eqb_refl.
    - intros y C. apply in_rev in C. eapply Hp; eauto.
    - intros C. apply in_rev in C. auto. }
  assert (E2 : live_after (c1 ++ IPut a x :: c2 ++ [IRemove a]) a = None).
  { unfold live_after. rewrite app_comm_cons, app_assoc, rev_app_distr. cbn [rev app stands_for].
    now rewrite N.eqb_refl. }
  destruct (C32_get_and_remove_follow_history (c1 ++ IPut a x :: c2) a) as [-> ->].
  destruct (C32_get_and_remove_follow_history (c1 ++ IPut a x :: c2 ++ [IRemove a]) a) as [-> ->].
  rewrite E, E2. auto.
Qed.
(** With such an allocator, handles of simultaneously live instances differ. *)
Theorem C32_live_handles_distinct : forall c1 a x c2 b y,
  live_after (c1 ++ IPut a x :: c2) b = None (* freshness of the second address *) ->
  live_after (c1 ++ IPut a x :: c2) a = Some x ->
  inst_last c1 (IPut a x) <> inst_last (c1 ++ IPut a x :: c2) (IPut b y)
  /\ live_after ((c1 ++ IPut a x :: c2) ++ [IPut b y]) a = Some x
  /\ live_after ((c1 ++ IPut a x :: c2) ++ [IPut b y]) b = Some y.
Proof.
  intros c1 a x c2 b y Hb Ha. assert (a <> b) by (intros ->; congruence).
  split; [cbn; congruence|]. unfold live_after in *. rewrite !(rev_app_distr _ [IPut b y]).
  cbn [rev app stands_for]. rewrite N.eqb_refl. destruct (N.eqb_spec b a); [congruence|auto].
Qed.
(** Instances without size all get one address from the allocator: two of them
    share their handle and one Remove invalidates both. *)
Theorem C32_zero_size_instances_refuted : forall a x y,
  inst_last [] (IPut a x) = inst_last [IPut a x] (IPut a y)
  /\ inst_last [IPut a x; IPut a y; IRemove a] (IGet a) = RInst None.
Proof.
  intros a x y. split; [reflexivity|].
  destruct (C32_get_and_remove_follow_history [IPut a x; IPut a y; IRemove a] a) as [-> _].
  unfold live_after. cbn [rev app stands_for]. now rewrite N.eqb_refl.
Qed.
Example C32_example :
  snd (inst_run [] [IPut 16 1; IPut 32 2; IGet 16; IRemove 16; IRemove 16; IGet 32; IPut 16 3; IGet 16; IGet 99])
  = [RHandle 16; RHandle 32; RInst (Some 1); RInst (Some 1); RInst None; RInst (Some 2); RHandle 16; RInst (Some 3); RInst None].
Proof. vm_compute. reflexivity. Qed.
Print Assumptions C32_get_and_remove_follow_history.
Print Assumptions C32_handle_until_removed.
Print Assumptions C32_live_handles_distinct.
Print Assumptions C32_zero_size_instances_refuted.

(** *** C33: port messages *)
Theorem C33_port_message_general : forall p, exists b, encode_port p = Ok b /\
  decode_port b = Ok {| po_port := takeN (len (po_port p) mod 65536) (po_port p);
                        po_data := dropN (len (po_port p) mod 65536) (po_port p) ++ po_data p;
                        po_complete := po_complete p || po_next p;
                        po_next := po_complete p || po_next p |}.
Proof.
  intros p. set (flags := N.lor (if po_complete p then PortFlagComplete else 0) (if po_next p then PortFlagNext else 0)).
  assert (W : writes (put [flags] (put (be 2 (u16 (len (po_port p))))
    (copy_adv (po_port p) (len (po_port p)) (copy_end (po_data p)))))
    ([flags] ++ be 2 (u16 (len (po_port p))) ++ po_port p ++ po_data p)).
  { apply writes_put. apply writes_put. apply writes_copy_adv; [reflexivity|]. apply writes_copy_end. }
  eexists. split.
  - unfold encode_port. fold flags. rewrite W.
    + rewrite dropN_all, app_nil_r; [reflexivity|]. rewrite len_zeros, !len_app, len_be, len_cons, len_nil. lia.
    + rewrite len_zeros, !len_app, len_be, len_cons, len_nil. lia.
  - unfold decode_port. rewrite (get_be_exact 1 [flags]) by reflexivity. cbn [bind fst snd].
    rewrite get_be_app by apply u16_lt. cbn [bind fst snd]. unfold split_at.
    rewrite len_app. unfold u16.
    destruct (N.leb_spec (len (po_port p) mod 65536) (len (po_port p) + len (po_data p))); [|lia].
    cbn [bind fst snd]. rewrite takeN_app_le, dropN_app_le by lia.
    unfold flags. destruct (po_complete p), (po_next p); reflexivity.
Qed.
Theorem C33_port_round_trip : forall p, len (po_port p) < 65536 -> exists b q,
  encode_port p = Ok b /\ decode_port b = Ok q /\ po_port q = po_port p /\ po_data q = po_data p
  /\ (po_next q = true <-> po_next p = true \/ po_complete p = true)
  /\ (po_complete q = true <-> po_next p = true \/ po_complete p = true).
Proof.
  intros p H. destruct (C33_port_message_general p) as (b & E1 & E2).
  eexists b, _. split; [exact E1|]. split; [exact E2|]. cbn [po_port po_data po_next po_complete].
  rewrite N.mod_small, takeN_all, dropN_all by lia.
  split; [reflexivity|]. split; [reflexivity|]. destruct (po_complete p), (po_next p); cbn; intuition.
Qed.
(** So an end-of-port message cannot be told from one carrying a value. *)
Theorem C33_flags_conflated_refuted : forall p q,
  po_port p = po_port q -> po_data p = po_data q -> po_next p = true -> po_complete p = false ->
  po_next q = false -> po_complete q = true -> encode_port p = encode_port q.
Proof. intros p q H1 H2 H3 H4 H5 H6. unfold encode_port. now rewrite H1, H2, H3, H4, H5, H6. Qed.
Theorem C33_decode_short_input_panics : forall b, (exists q, decode_port b = Ok q) <->
  3 <= len b /\ 3 + unbe (takeN 2 (dropN 1 b)) <= len b.
Proof.
  intros b. unfold decode_port. destruct b as [|x [|y [|z r]]].
  - split; [intros [q C]; discriminate|]. rewrite len_nil. lia.
  - split; [intros [q C]; discriminate|]. rewrite len_cons, len_nil. lia.
  - split; [intros [q C]; discriminate|]. rewrite !len_cons, len_nil. lia.
  - change (x :: y :: z :: r) with ([x] ++ [y; z] ++ r). rewrite dropN_app_exact by reflexivity.
    rewrite takeN_app_exact by reflexivity.
    rewrite (get_be_exact 1 [x]) by reflexivity. cbn [bind fst snd].
    rewrite (get_be_exact 2 [y; z]) by reflexivity. cbn [bind fst snd].
    unfold split_at. rewrite !len_app. change (len [x]) with 1. change (len [y; z]) with 2.
    destruct (N.leb_spec (unbe [y; z]) (len r)); cbn [bind]; split.
    + intros _. lia.
    + intros _. eauto.
    + intros [q C]. discriminate.
    + lia.
Qed.
Example C33_example :
  let p := {| po_port := [97; 98]; po_data := [1; 2; 3]; po_complete := true; po_next := false |} in
  encode_port p = Ok [1; 0; 2; 97; 98; 1; 2; 3]
  /\ decode_port [1; 0; 2; 97; 98; 1; 2; 3]
     = Ok {| po_port := [97; 98]; po_data := [1; 2; 3]; po_complete := true; po_next := true |}
  /\ decode_port [0; 0; 2; 97] = Panic.
Proof. vm_compute. auto. Qed.
Print Assumptions C33_port_message_general.
Print Assumptions C33_port_round_trip.
Print Assumptions C33_flags_conflated_refuted.
Print Assumptions C33_decode_short_input_panics.
