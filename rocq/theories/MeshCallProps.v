(** C101, C102: calls between the modules of a mesh, and clients made by a host. *)
From Verif Require Import Base BaseFacts FramesModel FramesProps WasmModel WasmProofs TcpModel FramesProofs InvokeModel InvokeProofs InvokeProps LookupModel
  HandlerModel HandlerCallProps JointModel JointFacts JointProps WasmEndModel WasmJointModel WasmJointFacts WasmJointProps MeshModel MeshProps MeshCallModel.
From Verif Require MonoModel MonoFacts MonoProps.
Local Ltac Zify.zify_post_hook ::= Z.div_mod_to_equations.

(** ** The tables of registries *)
Lemma convert_slots : forall l k ty, map slot_of (filter is_import (convert_operations k l ty 2)) = map (fun o => (ty, o_index o)) (convert_operations k l ty 2).
Proof. induction l as [|i l IH]; intros k ty; [reflexivity|]. cbn [convert_operations filter map]. unfold is_import at 1. cbn [o_dir]. cbn [N.eqb Pos.eqb map]. rewrite IH. reflexivity. Qed.
Lemma convert_exports : forall l k ty, filter is_import (convert_operations k l ty 1) = [].
Proof. induction l as [|i l IH]; intros k ty; [reflexivity|]. cbn [convert_operations filter]. unfold is_import at 1. cbn [o_dir]. cbn [N.eqb Pos.eqb]. apply IH. Qed.
Lemma convert_index : forall l k ty dir x, In x (map o_index (convert_operations k l ty dir)) -> k + len l <= 4294967296 -> k <= x.
Proof.
  induction l as [|i l IH]; intros k ty dir x H L; [destruct H|]. cbn [convert_operations map In o_index] in H. rewrite len_cons in L. destruct H as [<-|H].
  - unfold u32. rewrite N.mod_small by lia. lia.
  - specialize (IH _ _ _ _ H). lia.
Qed.
Lemma convert_distinct : forall l k ty, k + len l <= 4294967296 -> NoDup (map (fun o => (ty, o_index o)) (convert_operations k l ty 2)).
Proof.
  induction l as [|i l IH]; intros k ty L; [constructor|]. rewrite len_cons in L. cbn [convert_operations map]. constructor; [|apply IH; lia].
  cbn [o_index]. intros H. apply in_map_iff in H. destruct H as (o & E & H). injection E as E.
  pose proof (convert_index l (k + 1) ty 2 (o_index o) (in_map _ _ _ H)) as G. unfold u32 in E. rewrite N.mod_small in E by lia. lia.
Qed.
Lemma registry_distinct : forall calls, len calls < 4294967296 -> distinct_imports (get_table (reg_run calls)).
Proof.
  intros calls L. unfold distinct_imports, get_table. rewrite !filter_app, !map_app. unfold DirExport, DirImport. rewrite !convert_exports. cbn [map app]. rewrite !convert_slots.
  assert (B : forall k, len (imports k (reg_run calls)) <= 4294967295). { intros k. destruct (reg_inv calls k) as (_ & _ & ->). pose proof (len_imports k calls). lia. }
  pose proof (B RR) as B1. pose proof (B FNF) as B2. pose proof (B RS) as B3. pose proof (B RC) as B4. cbn [imports] in *.
  assert (T : forall (ty ty' : N) (l l' : list oper) x, ty <> ty' -> In x (map (fun o => (ty, o_index o)) l) -> ~ In x (map (fun o => (ty', o_index o)) l')).
  { intros ty ty' l l' x N H H'. apply in_map_iff in H, H'. destruct H as (? & <- & _), H' as (? & E & _). congruence. }
  repeat apply NoDup_app_intro; try (apply convert_distinct; lia); intros x Hx Hy; rewrite ?in_app_iff in Hy;
    repeat (destruct Hy as [Hy|Hy]; [revert Hx Hy; apply T; discriminate|]); revert Hx Hy; apply T; discriminate.
Qed.
Lemma tables_distinct : forall mods, Forall (fun x => len (snd x) < 2 ^ 32 - 1) mods -> Forall (fun x => distinct_imports (snd x)) (mesh_tables mods).
Proof. intros mods H. unfold mesh_tables. apply Forall_map. eapply Forall_impl; [|exact H]. intros [f c] L. cbn [fst snd] in *. apply registry_distinct. lia. Qed.
Lemma registered_few : forall mods n, Forall (fun x => len (snd x) < 2 ^ 32 - 1) mods -> len (registered mods n) < 2 ^ 32 - 1.
Proof.
  intros mods n H. unfold registered. destruct (nth_error mods n) as [x|] eqn:E; [|reflexivity]. rewrite Forall_forall in H. apply H. eapply nth_error_In; eauto.
Qed.
Lemma in_events_from : forall mods k n o, In (n, o) (events_from k (mesh_tables mods)) <-> (k <= n)%nat /\ In o (get_table (reg_run (registered mods (n - k)))).
Proof.
  induction mods as [|[f c] mods IH]; intros k n o; cbn [mesh_tables map events_from fst snd].
  - split; [intros []|]. intros [_ H]. unfold registered in H. destruct (n - k)%nat; cbn in H; exact H.
  - rewrite in_app_iff. fold (mesh_tables mods). rewrite IH. split.
    + intros [H|[H1 H2]].
      * apply in_map_iff in H. destruct H as (o' & E & H). injection E as <- <-. split; [lia|]. now rewrite Nat.sub_diag.
      * split; [lia|]. replace (n - k)%nat with (S (n - S k)) by lia. exact H2.
    + intros [H1 H2]. destruct (Nat.eq_dec n k) as [->|N].
      * left. rewrite Nat.sub_diag in H2. apply in_map_iff. eauto.
      * right. split; [lia|]. replace (n - k)%nat with (S (n - S k)) in H2 by lia. exact H2.
Qed.
Lemma in_events : forall mods n o, In (n, o) (events (mesh_tables mods)) <-> In o (get_table (reg_run (registered mods n))).
Proof. intros. unfold events. rewrite in_events_from, Nat.sub_0_r. intuition lia. Qed.

(** ** C101 *)
(** *** Specification *)
(** Module [b] registered handler [h] for single calls of operation [i]. *)
Definition serves_call (mods : list (bytes * list reg_call)) (i : info) (b : nat) (h : N) : Prop :=
  exists f calls, nth_error mods b = Some (f, calls) /\ In (CExport RR i h) calls.
(** What may come back of a call of operation [i]: an answer of a handler that some
    module registered for it, given the caller's data and the metadata behind the
    two numbers, or the error that there is none. *)
Definition mesh_outcome (mods : list (bytes * list reg_call)) (service : nat -> N -> pay -> pay + bytes -> Prop) (i : info) (p : pay) (k : scall) : Prop :=
  (exists b h r, serves_call mods i b h /\ service b h {| py_data := py_data p; py_meta := skipn 8 (py_meta p) |} r /\ k = match r with inl v => SNext v | inr e => SError e end) \/
  ((forall b h, ~ serves_call mods i b h) /\ k = SError [110; 111; 116; 95; 102; 111; 117; 110; 100]).
(** Operation [i] is exported for single calls only. *)
Definition single_calls_only (mods : list (bytes * list reg_call)) (i : info) : Prop :=
  forall x k h, In x mods -> In (CExport k i h) (snd x) -> k = RR.

Lemma export_in : forall calls k n i h, nth_error (exports_of k calls) n = Some (i, h) -> In (CExport k i h) calls.
Proof.
  intros calls k n i h H. apply nth_error_In in H. clear n. induction calls as [|[k' i' h'|k' i'] c IH]; cbn [exports_of] in H.
  - destruct H.
  - destruct (kind_eqb k k') eqn:E; [|right; auto]. destruct H as [H|H]; [|right; auto]. left. injection H as -> ->. destruct k, k'; try discriminate E; reflexivity.
  - right; auto.
Qed.
Lemma export_nth : forall calls k i h, In (CExport k i h) calls -> exists n, nth_error (exports_of k calls) n = Some (i, h).
Proof.
  intros calls k i h H. apply In_nth_error. induction calls as [|[k' i' h'|k' i'] c IH]; [destruct H| |]; cbn [exports_of]; destruct H as [H|H].
  - injection H as -> -> ->. replace (kind_eqb k k) with true by now destruct k. now left.
  - destruct (kind_eqb k k'); [right|]; auto.
  - discriminate H.
  - auto.
Qed.
Lemma registered_in : forall mods b c, In c (registered mods b) -> exists f, nth_error mods b = Some (f, registered mods b).
Proof. intros mods b c H. unfold registered in *. destruct (nth_error mods b) as [[f x]|]; [|destruct H]. exists f. reflexivity. Qed.
Lemma serves_event : forall mods i b h, Forall (fun x => len (snd x) < 2 ^ 32 - 1) mods -> serves_call mods i b h ->
  exists e, In (b, e) (events (mesh_tables mods)) /\ serves (fst i) (snd i) e.
Proof.
  intros mods i b h F (f' & c' & H1 & H2). destruct (export_nth _ _ _ _ H2) as (n & Hn'). exists {| o_index := N.of_nat n; o_type := 1; o_dir := 1; o_ns := fst i; o_name := snd i |}.
  split; [|repeat split]. apply in_events. unfold registered. rewrite H1. cbn [snd]. apply table_in.
  - rewrite Forall_forall in F. specialize (F _ (nth_error_In _ _ H1)). cbn [snd] in F. lia.
  - left. exists RR, n, i, h. auto.
Qed.
Lemma event_serves : forall mods i, Forall (fun x => len (snd x) < 2 ^ 32 - 1) mods -> single_calls_only mods i ->
  forall b e, In (b, e) (events (mesh_tables mods)) -> serves (fst i) (snd i) e ->
  exists h, serves_call mods i b h /\ nth_error (exports_of RR (registered mods b)) (N.to_nat (o_index e)) = Some (i, h) /\ o_index e < 2 ^ 32.
Proof.
  intros mods i F Hs b e He (S1 & S2 & S3). apply in_events in He. pose proof (registered_few mods b F) as Lb.
  destruct (C29_advertised_export_dispatches (registered mods b) e ltac:(lia) He S1) as (k & h & T & I & _ & N). rewrite S2, S3, <- surjective_pairing in *.
  destruct (registered_in _ _ _ I) as (f' & Hb). assert (k = RR) by (eapply (Hs (f', registered mods b)); [eapply nth_error_In; eauto|exact I]). subst k.
  exists h. split; [exists f', (registered mods b); auto|]. split; [exact N|]. assert (N.to_nat (o_index e) < List.length (exports_of RR (registered mods b)))%nat by (apply nth_error_Some; congruence).
  pose proof (len_exports RR (registered mods b)) as Le. unfold len in *. lia.
Qed.
(** The handler that is linked to an import. *)
Lemma import_linked : forall mods m, Forall (fun x => len (snd x) < 2 ^ 32 - 1) mods -> load_all (mesh_tables mods) mesh_new = Ok m ->
  forall a f calls i, nth_error mods a = Some (f, calls) -> In (CImport RR i) calls -> single_calls_only mods i ->
  match handler m a RR (import_after calls RR i) with
  | Some d => exists h, serves_call mods i (d_inst d) h /\ nth_error (exports_of RR (registered mods (d_inst d))) (N.to_nat (d_index d)) = Some (i, h) /\ d_index d < 2 ^ 32
  | None => forall b h, ~ serves_call mods i b h
  end.
Proof.
  intros mods m F H a f calls i Ha Hi Hs. pose proof (tables_distinct mods F) as D.
  assert (Lc : len calls < 2 ^ 32 - 1). { rewrite Forall_forall in F. exact (F _ (nth_error_In _ _ Ha)). }
  set (o := {| o_index := import_after calls RR i; o_type := 1; o_dir := 2; o_ns := fst i; o_name := snd i |}).
  assert (Ho : In o (get_table (reg_run calls))).
  { apply (proj2 (C30_imports_advertised calls o Lc)). exists RR. cbn [o o_ns o_name o_type o_dir o_index]. rewrite <- surjective_pairing. auto. }
  assert (Hn : nth_error (mesh_tables mods) a = Some (f, get_table (reg_run calls))). { unfold mesh_tables. rewrite nth_error_map, Ha. reflexivity. }
  destruct (C66_imports_linked (mesh_tables mods) m a f _ o RR D H Hn Ho eq_refl eq_refl) as [X Y]. change (o_index o) with (import_after calls RR i) in X, Y. cbn [o_ns o_name o] in X, Y.
  assert (E : forall b h, serves_call mods i b h -> exported (mesh_tables mods) o). { intros b h Hb. exists b. exact (serves_event mods i b h F Hb). }
  destruct (handler m a RR (import_after calls RR i)) as [d|] eqn:Ed.
  - assert (Xe : exported (mesh_tables mods) o). { destruct (exportedb (mesh_tables mods) o) eqn:Eb; [now apply exportedb_spec|]. exfalso. assert (Z : ~ exported (mesh_tables mods) o) by (rewrite <- exportedb_spec, Eb; discriminate). specialize (Y Z). discriminate Y. }
    destruct (X Xe) as (d' & e & Hd & He & Se & Ie). injection Hd as <-. destruct (event_serves mods i F Hs _ _ He Se) as (h & A & B & C). exists h. rewrite <- Ie. auto.
  - intros b h Hb. destruct (X (E b h Hb)) as (d' & e & Hd & _). discriminate Hd.
Qed.

(** The handler that a call through the mesh reaches. *)
Lemma export_found : forall mods m, Forall (fun x => len (snd x) < 2 ^ 32 - 1) mods -> load_all (mesh_tables mods) mesh_new = Ok m ->
  forall i, single_calls_only mods i ->
  match latest (events (mesh_tables mods)) (fst i) (snd i) with
  | Some d => exists h, serves_call mods i (d_inst d) h /\ nth_error (exports_of RR (registered mods (d_inst d))) (N.to_nat (d_index d)) = Some (i, h) /\ d_index d < 2 ^ 32
  | None => forall b h, ~ serves_call mods i b h
  end.
Proof.
  intros mods m F H i Hs. destruct (latest _ _ _) as [d|] eqn:E.
  - destruct (latest_from _ _ _ _ E) as (e & He & Se & <-). exact (event_serves mods i F Hs _ _ He Se).
  - intros b h Hb. destruct (serves_event mods i b h F Hb) as (e & He & Se). exact (latest_some _ _ _ _ _ He Se E).
Qed.

(** A call of the host with the index of an export in the metadata. *)
Lemma host_call_outcome : forall exported imported behaves idx data rest i h k, 4 <= len rest -> idx < 2 ^ 32 -> nth_error (exports_of RR exported) (N.to_nat idx) = Some (i, h) ->
  wasm_outcome exported imported true behaves {| py_data := data; py_meta := be 4 idx ++ rest |} k ->
  exists r, behaves h {| py_data := data; py_meta := skipn 4 rest |} r /\ k = match r with inl v => SNext v | inr e => SError e end.
Proof.
  intros exported imported behaves idx data rest i h k Hr Hx Hn O. unfold wasm_outcome, selected in O. cbn [py_meta py_data negb] in O.
  rewrite len_app in O. change (len (be 4 idx)) with 4 in O. destruct (N.ltb_spec (4 + len rest) 8) as [|_]; [lia|]. cbv zeta in O. change (firstn 4 (be 4 idx ++ rest)) with (be 4 idx) in O.
  rewrite unbe_be_small in O by exact Hx. rewrite Hn in O. change (skipn 8 (be 4 idx ++ rest)) with (skipn 4 rest) in O.
  destruct O as [(v & O1 & O2)|(v & O1 & O2)]; [exists (inl v)|exists (inr v)]; auto.
Qed.

(** What comes back of a call that a guest makes of an imported operation is an
    answer of a handler that some module of the mesh registered for that
    operation, or, if there is none, the error. *)
Section C101.
Variable mods : list (bytes * list reg_call).
Variable m : mesh.
Variable sb : nat -> bool -> N -> bool.
Variable service : nat -> N -> pay -> pay + bytes -> Prop.
Variable room : nat -> bool -> N.
Variable answers : nat -> N -> pay -> pay + bytes -> Prop.
Hypothesis few : Forall (fun x => len (snd x) < 2 ^ 32 - 1) mods.
Hypothesis loaded : load_all (mesh_tables mods) mesh_new = Ok m.
Hypothesis relayed : forall n i q r, answers n i q r -> relays mods m sb service room answers n i q r.
Lemma mesh_wasm_outcome : forall a f calls i p rest k, nth_error mods a = Some (f, calls) -> In (CImport RR i) calls -> single_calls_only mods i ->
  py_meta p = be 4 (import_after calls RR i) ++ rest -> 4 <= len rest ->
  wasm_outcome (registered mods a) (import_handlers m a) false (at_instance service answers a false) p k -> mesh_outcome mods service i p k.
Proof.
  intros a f calls i p rest k Ha Hi Hs Em Hr W.
  assert (Lc : len calls < 2 ^ 32 - 1). { rewrite Forall_forall in few. exact (few _ (nth_error_In _ _ Ha)). }
  assert (Ix : import_after calls RR i < 4294967296).
  { destruct (import_position calls RR i) as (n & -> & Hn); [lia|]. assert (n < List.length (imports_of RR (calls ++ [CImport RR i])))%nat by (apply nth_error_Some; congruence).
    pose proof (len_imports RR (calls ++ [CImport RR i])) as Le. rewrite len_app, len_cons, len_nil in Le. unfold len in *. lia. }
  assert (Lb : forall x, len (be 4 x) = 4) by reflexivity.
  assert (Fb : forall x l, firstn 4 (be 4 x ++ l) = be 4 x) by reflexivity.
  pose proof (import_linked mods m few loaded a f calls i Ha Hi Hs) as Li.
  unfold wasm_outcome, selected in W. rewrite Em in W. rewrite len_app, Lb in W. destruct (N.ltb_spec (4 + len rest) 8) as [|_]; [lia|]. cbv zeta in W. rewrite Fb in W.
  rewrite unbe_be_small in W by exact Ix. unfold import_handlers in W. destruct (handler m a RR (import_after calls RR i)) as [d|] eqn:Ed.
  - left. destruct Li as (h & L1 & L2 & L3). unfold at_instance in W.
    assert (Z : exists r, answers a (import_after calls RR i) p r /\ k = match r with inl v => SNext v | inr e => SError e end) by (destruct W as [(v & W1 & W2)|(v & W1 & W2)]; [exists (inl v)|exists (inr v)]; auto).
    destruct Z as (r & Z1 & Z2). apply relayed in Z1. destruct Z1 as (d' & b & meta & j & o & sid & D1 & D2 & R & U & Hc & Hk). rewrite Ed in D1. injection D1 as <-.
    unfold forward in D2. rewrite Em, len_app, Lb in D2. destruct (N.ltb_spec (4 + len rest) 4) as [|_]; [lia|].
    rewrite dropN_skipn in D2. change (skipn (N.to_nat 4) (be 4 (import_after calls RR i) ++ rest)) with rest in D2.
    assert (D3 := f_equal (fun x => match x with Ok (y, Some z) => (y, z) | _ => (b, meta) end) D2). cbv beta iota in D3. apply pair_equal_spec in D3. destruct D3 as [D3 D4]. clear D2. subst b meta.
    pose proof (registered_few mods (d_inst d) few) as Lf.
    pose proof (C99_only_the_handlers_outcome (registered mods (d_inst d)) _ _ _ _ ltac:(lia) j R U false o sid _ false _ Hc Hk) as O.
    destruct (host_call_outcome _ _ _ _ _ _ i h _ Hr L3 L2 O) as (r' & O1 & O2). exists (d_inst d), h, r'. rewrite Em.
    change (skipn 8 (be 4 (import_after calls RR i) ++ rest)) with (skipn 4 rest). rewrite <- Z2 in O2. auto.
  - right. split; [exact Li|]. unfold refusal in W. rewrite Em, len_app, Lb in W. destruct (N.ltb_spec (4 + len rest) 8) as [|_]; [lia|]. exact W.
Qed.
End C101.
Theorem C101_only_the_exporters_outcome :
  forall mods m sb service room (answers : nat -> N -> pay -> pay + bytes -> Prop), Forall (fun x => len (snd x) < 2 ^ 32 - 1) mods -> load_all (mesh_tables mods) mesh_new = Ok m ->
  (forall n i q r, answers n i q r -> relays mods m sb service room answers n i q r) ->
  forall a f calls i, nth_error mods a = Some (f, calls) -> In (CImport RR i) calls -> single_calls_only mods i ->
  forall j, instance_runs mods m sb service room answers a j -> fits (room a) j ->
  forall o sid p rest input k, py_meta p = be 4 (import_after calls RR i) ++ rest -> 4 <= len rest ->
  In (HCalled o RR sid p input) (trace_of true j) -> In k (got o (trace_of true j)) ->
    mesh_outcome mods service i p k.
Proof.
  intros mods m sb service room answers F H A a f calls i Ha Hi Hs j R U o sid p rest input k Em Hr Hc Hk.
  pose proof (registered_few mods a F) as Lf.
  pose proof (C99_only_the_handlers_outcome (registered mods a) _ _ _ _ ltac:(lia) j R U true o sid p input k Hc Hk) as W.
  exact (mesh_wasm_outcome mods m sb service room answers F H A a f calls i p rest k Ha Hi Hs Em Hr W).
Qed.
(** Once the host has delivered everything, is idle and its handlers have answered,
    a subscribed call has such an outcome, and it is what the subscriber sees. *)
Theorem C101_call_answered :
  forall mods m sb service room (answers : nat -> N -> pay -> pay + bytes -> Prop), Forall (fun x => len (snd x) < 2 ^ 32 - 1) mods -> load_all (mesh_tables mods) mesh_new = Ok m ->
  (forall n i q r, answers n i q r -> relays mods m sb service room answers n i q r) ->
  forall a f calls i, nth_error mods a = Some (f, calls) -> In (CImport RR i) calls -> single_calls_only mods i ->
  forall j, instance_runs mods m sb service room answers a j -> fits (room a) j ->
  forall o sid p rest input, py_meta p = be 4 (import_after calls RR i) ++ rest -> 4 <= len rest ->
  In (HCalled o RR sid p input) (trace_of true j) -> In (HSubscribed o) (trace_of true j) -> quiet true j ->
  exists k, mesh_outcome mods service i p k /\ hd_error (got o (trace_of true j)) = Some k /\
    forall Q (h : MonoModel.handlers pay bytes Q (MonoModel.pcode pay bytes)) sched,
    let m := MonoModel.mrun MonoModel.proc_source MonoModel.proc_code sched
      (MonoModel.minit MonoModel.pstore0 [MonoModel.ASubscribe h :: MonoProps.results (flat_map result_of (got o (trace_of true j)))]) in
    MonoModel.mc_stack m = [] -> MonoModel.mc_threads m = [] ->
    MonoFacts.outcomes 0 (MonoModel.mc_trace m) = match k with SNext v => MonoProps.seen h (inl v) | SError x => MonoProps.seen h (inr x) | SComplete => [] end.
Proof.
  intros mods m sb service room answers F H A a f calls i Ha Hi Hs j R U o sid p rest input Em Hr Hc Hu Q.
  pose proof (registered_few mods a F) as Lf.
  destruct (C99_call_answered (registered mods a) _ _ _ _ ltac:(lia) j R U true o sid p input Hc Hu Q) as (k & W & G & V). exists k. split; [|split; [exact G|exact V]].
  exact (mesh_wasm_outcome mods m sb service room answers F H A a f calls i p rest k Ha Hi Hs Em Hr W).
Qed.
(** A call through the mesh itself: the instance that is called and the metadata
    it is given are such that the outcomes are those of a handler that this module
    registered for the operation; the result is nil if and only if there is none. *)
Theorem C101_call_through_mesh :
  forall mods m sb service room (answers : nat -> N -> pay -> pay + bytes -> Prop), Forall (fun x => len (snd x) < 2 ^ 32 - 1) mods -> load_all (mesh_tables mods) mesh_new = Ok m ->
  forall i head rest, single_calls_only mods i -> len head = 4 -> 4 <= len rest ->
  match request (fst i) (snd i) (Some (head ++ rest)) m with
  | None => forall b h, ~ serves_call mods i b h
  | Some (Ok (b, Some meta)) =>
      forall j, instance_runs mods m sb service room answers b j -> fits (room b) j ->
      forall o sid data input, In (HCalled o RR sid {| py_data := data; py_meta := meta |} input) (trace_of false j) ->
      let told k := exists h r, serves_call mods i b h /\ service b h {| py_data := data; py_meta := skipn 4 rest |} r /\ k = match r with inl v => SNext v | inr e => SError e end in
      (forall k, In k (got o (trace_of false j)) -> told k) /\
      (In (HSubscribed o) (trace_of false j) -> quiet false j -> exists k, told k /\ hd_error (got o (trace_of false j)) = Some k)
  | Some _ => False
  end.
Proof.
  intros mods m sb service room answers F H i head rest Hs Hh Hr. pose proof (export_found mods m F H i Hs) as X. pose proof (tables_distinct mods F) as D.
  rewrite (C67_lookup_reaches_latest _ _ _ _ _ rest D H Hh). destruct (latest _ _ _) as [d|]; [|exact X]. destruct X as (h & S & N & L).
  intros j R U o sid data input Hc told. pose proof (registered_few mods (d_inst d) F) as Lf.
  assert (T : forall k, wasm_outcome (registered mods (d_inst d)) (import_handlers m (d_inst d)) true (at_instance service answers (d_inst d) true) {| py_data := data; py_meta := be 4 (d_index d) ++ rest |} k -> told k).
  { intros k W. destruct (host_call_outcome _ _ _ _ _ _ i h _ Hr L N W) as (r & O1 & O2). exists h, r. auto. }
  split.
  - intros k Hk. apply T. exact (C99_only_the_handlers_outcome (registered mods (d_inst d)) _ _ _ _ ltac:(lia) j R U false o sid _ input k Hc Hk).
  - intros Hu Q. destruct (C99_call_answered (registered mods (d_inst d)) _ _ _ _ ltac:(lia) j R U false o sid _ input Hc Hu Q) as (k & W & G & _). exists k. auto.
Qed.

(** A module that exports two operations, one that imports one of these and
    another that nobody exports, and the second calling both. *)
Section Runs.
Variable exported : list reg_call.
Variable imported : kind -> N -> option N.
Variable behaves : bool -> N -> pay -> pay + bytes -> Prop.
Definition w_step (c : bool) (x : hop) (j : joint) : res ep := side_step exported imported (fun _ _ => true) c x (sd_ep (at_side c j)).
Definition w_do (c : bool) (x : hop) (j : joint) : joint := put_side c (advance x (match w_step c x j with Ok e => e | _ => ep_init end) (at_side c j)) j.
Definition w_get (c : bool) (j : joint) : joint := w_do c (XFrame (C99_crossed c (C99_next c j))) j.
Definition w_runs := wruns exported imported (fun _ _ => true) behaves C99_room.
Lemma w_op : forall c x j, (forall f, x <> XFrame f) -> is_ok (w_step c x j) = true -> w_runs j -> w_runs (w_do c x j).
Proof.
  intros c x j Hx H R. eapply wr_step; [exact R|]. unfold w_do. destruct (w_step c x j) as [e| |] eqn:E; try discriminate. apply WOp; [exact Hx|exact E].
Qed.
Lemma w_frame : forall c j, (List.length (received (trace_of c j)) <? List.length (sd_out (at_side (negb c) j)))%nat = true ->
  C99_crossable c (C99_next c j) = true -> is_ok (w_step c (XFrame (C99_crossed c (C99_next c j))) j) = true -> w_runs j -> w_runs (w_get c j).
Proof.
  intros c j Hn Hc Ho R. eapply wr_step; [exact R|]. unfold w_get, w_do. destruct (w_step c _ j) as [e| |] eqn:E; try discriminate.
  eapply (WFrame _ _ _ _ _ c (C99_next c j)); [apply nth_error_nth'; now apply Nat.ltb_lt| |exact E].
  unfold C99_crossable, C99_crossed, crosses in *. destruct (write_frame (zeros (C99_room c)) (C99_next c j)) as [[buf n]| |] eqn:W; try discriminate.
  exists [], (zeros (C99_room c)), [], buf, n. rewrite app_nil_r. cbn [app]. replace (len []) with 0 by reflexivity.
  destruct (if c then guest_receive buf n else host_receive buf 0 n) as [[|body [|]] []]; try discriminate.
  exists body. destruct (frame_of_bytes body); try discriminate. repeat split; auto. apply len_zeros.
Qed.
Lemma w_answered : forall c sid h p r j, In (HInvoke RR sid h p) (trace_of c j) -> behaves c h p r -> w_runs j -> w_runs (C99_reply c sid r j).
Proof. intros c sid h p r j H B R. eapply wr_step; [exact R|]. unfold C99_reply. eapply WAnswer; eauto. Qed.
End Runs.
Ltac w_act :=
  match goal with
  | |- w_runs _ _ _ (w_do _ _ _ _ _) => apply w_op; [discriminate|vm_compute; reflexivity|]
  | |- w_runs _ _ _ (w_get _ _ _ _) => apply w_frame; [vm_compute; reflexivity|vm_compute; reflexivity|vm_compute; reflexivity|]
  end.
Ltac w_fits j :=
  let c := fresh in intros c; split; [|destruct c; vm_compute; reflexivity]; destruct c;
  [let l := eval vm_compute in (sd_out (at_side true j)) in let E := fresh in assert (E : sd_out (at_side true j) = l) by (vm_compute; reflexivity); rewrite E; repeat constructor; cbn; lia
  |let l := eval vm_compute in (sd_out (at_side false j)) in let E := fresh in assert (E : sd_out (at_side false j) = l) by (vm_compute; reflexivity); rewrite E; repeat constructor; cbn; lia].
Definition C101_mods : list (bytes * list reg_call) :=
  [([1], [CImport RR ([97], [120]); CImport RS ([97], [99]); CImport RR ([97], [121]); CImport RR ([97], [99])]);
   ([2], [CExport RR ([97], [98]) 10; CExport RS ([97], [98]) 21; CExport RR ([97], [99]) 12])].
Definition C101_mesh : mesh := match load_all (mesh_tables C101_mods) mesh_new with Ok m => m | _ => mesh_new end.
Definition C101_service (n : nat) (h : N) (p : pay) (r : pay + bytes) : Prop := n = 1%nat /\ r = inl {| py_data := h :: py_data p; py_meta := py_meta p |}.
Definition C101_pay : pay := {| py_data := [5]; py_meta := [0; 0; 0; 2; 0; 0; 0; 0; 77] |}.
Definition C101_none : pay := {| py_data := [6]; py_meta := [0; 0; 0; 0; 0; 0; 0; 0] |}.
Definition C101_reply : pay := {| py_data := [12; 5]; py_meta := [77] |}.
Definition C101_answers (n : nat) (i : N) (q : pay) (r : pay + bytes) : Prop := n = 0%nat /\ i = 2 /\ q = C101_pay /\ r = inl C101_reply.
Definition C101_sent : pay := {| py_data := [5]; py_meta := [0; 0; 0; 1; 0; 0; 0; 0; 77] |}.
(** The instance of the exporter. *)
Definition b_do := w_do (registered C101_mods 1) (import_handlers C101_mesh 1).
Definition b_get := w_get (registered C101_mods 1) (import_handlers C101_mesh 1).
Definition C101_b := b_get false (C99_reply true 2 (inl C101_reply) (b_do true (XJob 0) (b_get true (b_do false (XSubscribe 0) (b_do false (XCall RR C101_sent false) joint_init))))).
(** The instance of the caller. *)
Definition a_do := w_do (registered C101_mods 0) (import_handlers C101_mesh 0).
Definition a_get := w_get (registered C101_mods 0) (import_handlers C101_mesh 0).
Definition C101_a := a_get true (a_get true (C99_reply false 1 (inl C101_reply) (a_do false (XJob 0) (a_do false (XJob 0) (a_get false (a_get false
  (a_do true (XSubscribe 1) (a_do true (XCall RR C101_none false) (a_do true (XSubscribe 0) (a_do true (XCall RR C101_pay false) joint_init)))))))))).
Definition C101_runs := instance_runs C101_mods C101_mesh (fun _ _ _ => true) C101_service (fun _ => C99_room) C101_answers.
Example C101_example :
  Forall (fun x => len (snd x) < 2 ^ 32 - 1) C101_mods /\ load_all (mesh_tables C101_mods) mesh_new = Ok C101_mesh /\
  (forall n i q r, C101_answers n i q r -> relays C101_mods C101_mesh (fun _ _ _ => true) C101_service (fun _ => C99_room) C101_answers n i q r) /\
  single_calls_only C101_mods ([97], [99]) /\ single_calls_only C101_mods ([97], [120]) /\
  py_meta C101_pay = be 4 (import_after (registered C101_mods 0) RR ([97], [99])) ++ [0; 0; 0; 0; 77] /\
  py_meta C101_none = be 4 (import_after (registered C101_mods 0) RR ([97], [120])) ++ [0; 0; 0; 0] /\
  request [97] [99] (Some (py_meta C101_pay)) C101_mesh = Some (Ok (1%nat, Some (py_meta C101_sent))) /\
  C101_runs 1 C101_b /\ fits C99_room C101_b /\ got 0 (trace_of false C101_b) = [SNext C101_reply] /\
  C101_runs 0 C101_a /\ fits C99_room C101_a /\ quiet true C101_a /\
  In (HCalled 0 RR 1 C101_pay false) (trace_of true C101_a) /\ In (HCalled 1 RR 3 C101_none false) (trace_of true C101_a) /\
  got 0 (trace_of true C101_a) = [SNext C101_reply] /\ got 1 (trace_of true C101_a) = [SError not_found].
Proof.
  assert (Rb : C101_runs 1 C101_b).
  { change (w_runs (registered C101_mods 1) (import_handlers C101_mesh 1) (at_instance C101_service C101_answers 1) C101_b). unfold C101_b, b_get, b_do.
    w_act. eapply (w_answered _ _ _ true 2 12 {| py_data := [5]; py_meta := [77] |}); [vm_compute; tauto|split; reflexivity|]. do 4 w_act. constructor. }
  assert (Fb : fits C99_room C101_b) by w_fits C101_b.
  split; [repeat constructor|]. split; [vm_compute; reflexivity|]. split.
  { intros n i q r (-> & -> & -> & ->). exists {| d_inst := 1; d_index := 1 |}, 1%nat, (py_meta C101_sent), C101_b, 0, 2.
    split; [vm_compute; reflexivity|]. split; [vm_compute; reflexivity|]. split; [exact Rb|]. split; [exact Fb|]. split; vm_compute; tauto. }
  split; [|split]; try (intros x k h Hx He; cbn [C101_mods In] in Hx; repeat (destruct Hx as [<-|Hx]; [cbn [snd In] in He; repeat (destruct He as [He|He]; [try discriminate He; injection He; intros; subst; try discriminate; reflexivity|]); destruct He|]); destruct Hx).
  split; [vm_compute; reflexivity|]. split; [vm_compute; reflexivity|]. split; [vm_compute; reflexivity|]. split; [exact Rb|]. split; [exact Fb|]. split; [vm_compute; reflexivity|].
  split.
  { change (w_runs (registered C101_mods 0) (import_handlers C101_mesh 0) (at_instance C101_service C101_answers 0) C101_a). unfold C101_a, a_get, a_do.
    do 2 w_act. eapply (w_answered _ _ _ false 1 2 C101_pay); [vm_compute; tauto|repeat split|]. do 8 w_act. constructor. }
  split; [w_fits C101_a|]. split.
  { split; [intros []; vm_compute; reflexivity|]. split; [vm_compute; reflexivity|]. intros sid h p H.
    assert (X : sid = 1). { revert H. let l := eval vm_compute in (trace_of (negb true) C101_a) in assert (E : trace_of (negb true) C101_a = l) by (vm_compute; reflexivity); rewrite E; clear E.
      intros H. cbn [In] in H. repeat (destruct H as [H|H]; [try discriminate H; injection H; congruence|]). destruct H. }
    subst sid. exists (inl C101_reply). vm_compute. tauto. }
  vm_compute. tauto.
Qed.
Print Assumptions C101_only_the_exporters_outcome.
Print Assumptions C101_call_answered.
Print Assumptions C101_call_through_mesh.
