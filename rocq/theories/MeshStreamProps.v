(** C105: streams and channels between the modules of a mesh. *)
From Verif Require Import Base BaseFacts FramesModel FramesProofs FramesProps WasmModel WasmProofs TcpModel InvokeModel InvokeProofs InvokeProps LookupModel
  HandlerModel HandlerFacts HandlerProps HandlerCallProps HandlerServeProps JointModel JointFacts JointProps StreamFacts StreamProps
  WasmEndModel WasmCallFacts WasmJointModel WasmJointFacts WasmJointProps WasmStreamProps MeshModel MeshProps MeshCallModel MeshCallProps MeshStreamModel.
From Verif Require FluxModel FluxFacts FluxProps ProcProps.
Local Ltac Zify.zify_post_hook ::= Z.div_mod_to_equations.

(** ** Specification *)
(** Module [b] registered handler [h] for calls of kind [k] of operation [i]. *)
Definition serves_as (k : kind) (mods : list (bytes * list reg_call)) (i : info) (b : nat) (h : N) : Prop :=
  exists f calls, nth_error mods b = Some (f, calls) /\ In (CExport k i h) calls.
(** Operation [i] is exported for calls of kind [k] only. *)
Definition exported_as (k : kind) (mods : list (bytes * list reg_call)) (i : info) : Prop :=
  forall x k' h, In x mods -> In (CExport k' i h) (snd x) -> k' = k.
(** All that is on the way to side [c] has arrived, and that side is idle. *)
Definition settled (c : bool) (j : joint) : Prop :=
  List.length (received (trace_of c j)) = List.length (sd_out (at_side (negb c) j)) /\ ep_jobs (sd_ep (at_side c j)) = [].

(** ** The handler linked to an import *)
Lemma serves_as_event : forall k mods i b h, Forall (fun x => len (snd x) < 2 ^ 32 - 1) mods -> serves_as k mods i b h ->
  exists e, In (b, e) (events (mesh_tables mods)) /\ serves (fst i) (snd i) e.
Proof.
  intros k mods i b h F (f' & c' & H1 & H2). destruct (export_nth _ _ _ _ H2) as (n & Hn').
  exists {| o_index := N.of_nat n; o_type := InvokeProofs.kind_code k; o_dir := 1; o_ns := fst i; o_name := snd i |}.
  split; [|repeat split]. apply in_events. unfold registered. rewrite H1. cbn [snd]. apply table_in.
  - rewrite Forall_forall in F. specialize (F _ (nth_error_In _ _ H1)). cbn [snd] in F. lia.
  - left. exists k, n, i, h. auto.
Qed.
Lemma event_serves_as : forall k mods i, Forall (fun x => len (snd x) < 2 ^ 32 - 1) mods -> exported_as k mods i ->
  forall b e, In (b, e) (events (mesh_tables mods)) -> serves (fst i) (snd i) e ->
  exists h, serves_as k mods i b h /\ nth_error (exports_of k (registered mods b)) (N.to_nat (o_index e)) = Some (i, h) /\ o_index e < 2 ^ 32.
Proof.
  intros k mods i F Hs b e He (S1 & S2 & S3). apply in_events in He. pose proof (registered_few mods b F) as Lb.
  destruct (C29_advertised_export_dispatches (registered mods b) e ltac:(lia) He S1) as (k' & h & T & I & _ & N). rewrite S2, S3, <- surjective_pairing in *.
  destruct (registered_in _ _ _ I) as (f' & Hb). assert (k' = k) by (eapply (Hs (f', registered mods b)); [eapply nth_error_In; eauto|exact I]). subst k'.
  exists h. split; [exists f', (registered mods b); auto|]. split; [exact N|]. assert (N.to_nat (o_index e) < List.length (exports_of k (registered mods b)))%nat by (apply nth_error_Some; congruence).
  pose proof (len_exports k (registered mods b)) as Le. unfold len in *. lia.
Qed.
Lemma linked_as : forall k mods m, Forall (fun x => len (snd x) < 2 ^ 32 - 1) mods -> load_all (mesh_tables mods) mesh_new = Ok m ->
  forall a f calls i, nth_error mods a = Some (f, calls) -> In (CImport k i) calls -> exported_as k mods i ->
  match handler m a k (import_after calls k i) with
  | Some d => exists h, serves_as k mods i (d_inst d) h /\ nth_error (exports_of k (registered mods (d_inst d))) (N.to_nat (d_index d)) = Some (i, h) /\ d_index d < 2 ^ 32
  | None => forall b h, ~ serves_as k mods i b h
  end.
Proof.
  intros k mods m F H a f calls i Ha Hi Hs. pose proof (tables_distinct mods F) as D.
  assert (Lc : len calls < 2 ^ 32 - 1). { rewrite Forall_forall in F. exact (F _ (nth_error_In _ _ Ha)). }
  set (o := {| o_index := import_after calls k i; o_type := InvokeProofs.kind_code k; o_dir := 2; o_ns := fst i; o_name := snd i |}).
  assert (Ho : In o (get_table (reg_run calls))).
  { apply (proj2 (C30_imports_advertised calls o Lc)). exists k. cbn [o o_ns o_name o_type o_dir o_index]. rewrite <- surjective_pairing. auto. }
  assert (Hn : nth_error (mesh_tables mods) a = Some (f, get_table (reg_run calls))). { unfold mesh_tables. rewrite nth_error_map, Ha. reflexivity. }
  assert (Kt : MeshProps.kind_of (o_type o) = Some k) by (destruct k; reflexivity).
  destruct (C66_imports_linked (mesh_tables mods) m a f _ o k D H Hn Ho eq_refl Kt) as [X Y]. change (o_index o) with (import_after calls k i) in X, Y. cbn [o_ns o_name o] in X, Y.
  assert (E : forall b h, serves_as k mods i b h -> exported (mesh_tables mods) o). { intros b h Hb. exists b. exact (serves_as_event k mods i b h F Hb). }
  destruct (handler m a k (import_after calls k i)) as [d|] eqn:Ed.
  - assert (Xe : exported (mesh_tables mods) o). { destruct (exportedb (mesh_tables mods) o) eqn:Eb; [now apply exportedb_spec|]. exfalso. assert (Z : ~ exported (mesh_tables mods) o) by (rewrite <- exportedb_spec, Eb; discriminate). specialize (Y Z). discriminate Y. }
    destruct (X Xe) as (d' & e & Hd & He & Se & Ie). injection Hd as <-. destruct (event_serves_as k mods i F Hs _ _ He Se) as (h & A & B & C). exists h. rewrite <- Ie. auto.
  - intros b h Hb. destruct (X (E b h Hb)) as (d' & e & Hd & _). discriminate Hd.
Qed.
Lemma import_small : forall k calls i, len calls < 2 ^ 32 - 1 -> import_after calls k i < 4294967296.
Proof.
  intros k calls i L. destruct (import_position calls k i) as (n & -> & Hn); [lia|]. assert (n < List.length (imports_of k (calls ++ [CImport k i])))%nat by (apply nth_error_Some; congruence).
  pose proof (len_imports k (calls ++ [CImport k i])) as Le. rewrite len_app, len_cons, len_nil in Le. unfold len in *. lia.
Qed.
Lemma selected_import : forall ex im k idx data rest, idx < 4294967296 -> 4 <= len rest -> forall p, p = {| py_data := data; py_meta := be 4 idx ++ rest |} ->
  selected ex im false k p = match im k idx with Some h => Some (h, p) | None => None end.
Proof.
  intros ex im k idx data rest Hx Hr p ->. unfold selected. cbn [py_meta]. assert (Lb : forall x, len (be 4 x) = 4) by reflexivity. assert (Fb : forall x l, firstn 4 (be 4 x ++ l) = be 4 x) by reflexivity.
  rewrite len_app, Lb. destruct (N.ltb_spec (4 + len rest) 8) as [|_]; [lia|]. cbv zeta. rewrite Fb, unbe_be_small by exact Hx. reflexivity.
Qed.
Lemma selected_export : forall ex im k idx data rest i h, k = RS \/ k = RC -> idx < 4294967296 -> 4 <= len rest -> nth_error (exports_of k ex) (N.to_nat idx) = Some (i, h) ->
  selected ex im true k {| py_data := data; py_meta := be 4 idx ++ rest |} = Some (h, {| py_data := data; py_meta := be 4 idx ++ rest |}).
Proof.
  intros ex im k idx data rest i h Hk Hx Hr Hn. unfold selected. cbn [py_meta py_data]. assert (Lb : forall x, len (be 4 x) = 4) by reflexivity. assert (Fb : forall x l, firstn 4 (be 4 x ++ l) = be 4 x) by reflexivity.
  rewrite len_app, Lb. destruct (N.ltb_spec (4 + len rest) 8) as [|_]; [lia|]. cbv zeta. rewrite Fb, unbe_be_small by exact Hx. rewrite Hn. destruct Hk as [-> | ->]; reflexivity.
Qed.

(** What the relayed call is. *)
Lemma relayed_payload : forall mods m, Forall (fun x => len (snd x) < 2 ^ 32 - 1) mods -> load_all (mesh_tables mods) mesh_new = Ok m ->
  forall sb service room answers k, k = RS \/ k = RC ->
  forall a f calls i, nth_error mods a = Some (f, calls) -> In (CImport k i) calls -> exported_as k mods i ->
  forall ja, instance_runs mods m sb service room answers a ja -> fits (room a) ja ->
  forall o sid p rest input, py_meta p = be 4 (import_after calls k i) ++ rest -> 4 <= len rest -> In (HCalled o k sid p input) (trace_of true ja) ->
  forall b jb o' sid', relayed_call m k a ja sid b jb o' sid' ->
  exists idx h input', serves_as k mods i b h /\ nth_error (exports_of k (registered mods b)) (N.to_nat idx) = Some (i, h) /\ idx < 2 ^ 32 /\
    In (HCalled o' k sid' {| py_data := py_data p; py_meta := be 4 idx ++ rest |} input') (trace_of false jb).
Proof.
  intros mods m F H sb service room answers k Hk a f calls i Ha Hi Hs ja R U o sid p rest input Em Hr Hc b jb o' sid' (x & q & d & meta & input' & I1 & I2 & I3 & I4).
  pose proof (registered_few mods a F) as Lf. assert (Lc : len calls < 2 ^ 32 - 1). { rewrite Forall_forall in F. exact (F _ (nth_error_In _ _ Ha)). }
  pose proof (import_small k calls i Lc) as Ix.
  destruct (C100_handler_invoked_once (registered mods a) _ _ _ _ ltac:(lia) ja R U true o k sid p input Hk Hc) as [One _]. cbn [negb] in One.
  assert (In1 : In (k, x, q) (invocations sid (trace_of false ja))) by (apply in_invocations; exact I1).
  destruct One as [One|(h0 & S & One)]; [rewrite One in In1; destruct In1|]. rewrite One in In1. destruct In1 as [In1|[]]. injection In1 as -> ->.
  destruct q as [pd pm]. cbn [py_meta py_data] in *. subst pm. rewrite (selected_import _ _ _ _ _ _ Ix Hr _ eq_refl) in S.
  unfold import_handlers in S. destruct (handler m a k (import_after calls k i)) as [d0|] eqn:Ed; [|discriminate]. injection S as <-.
  pose proof (linked_as k mods m F H a f calls i Ha Hi Hs) as Li. rewrite Ed in Li. rewrite Ed in I2. injection I2 as <-.
  assert (Lb : forall x, len (be 4 x) = 4) by reflexivity. unfold forward in I3. rewrite len_app, Lb in I3. destruct (N.ltb_spec (4 + len rest) 4) as [|_]; [lia|].
  rewrite dropN_skipn in I3. change (skipn (N.to_nat 4) (be 4 (import_after calls k i) ++ rest)) with rest in I3.
  assert (D3 := f_equal (fun x => match x with Ok (y, Some z) => (y, z) | _ => (b, meta) end) I3). cbv beta iota in D3. apply pair_equal_spec in D3. destruct D3 as [D3 D4]. clear I3. subst b meta.
  destruct Li as (h & L1 & L2 & L3). exists (d_index d0), h, input'. auto.
Qed.

(** ** C105 *)
(** At most one handler is invoked for a call of an imported stream or channel,
    and it is one that a module of the mesh registered for that operation; it gets
    the data of the caller and the metadata behind the number of the operation.
    If there is none, the host invokes nothing. *)
Theorem C105_exporter_invoked :
  forall mods m sb service room answers, Forall (fun x => len (snd x) < 2 ^ 32 - 1) mods -> load_all (mesh_tables mods) mesh_new = Ok m ->
  forall k, k = RS \/ k = RC ->
  forall a f calls i, nth_error mods a = Some (f, calls) -> In (CImport k i) calls -> exported_as k mods i ->
  forall ja, instance_runs mods m sb service room answers a ja -> fits (room a) ja ->
  forall o sid p rest input, py_meta p = be 4 (import_after calls k i) ++ rest -> 4 <= len rest -> In (HCalled o k sid p input) (trace_of true ja) ->
  ((forall b h, ~ serves_as k mods i b h) -> invocations sid (trace_of false ja) = []) /\
  ((exists b h, serves_as k mods i b h) -> asks o (trace_of true ja) <> [] -> settled false ja -> List.length (invocations sid (trace_of false ja)) = 1%nat) /\
  forall b jb o' sid', instance_runs mods m sb service room answers b jb -> fits (room b) jb -> relayed_call m k a ja sid b jb o' sid' ->
    (forall x, In x (invocations sid' (trace_of true jb)) -> exists h head, serves_as k mods i b h /\ len head = 4 /\ x = (k, h, {| py_data := py_data p; py_meta := head ++ rest |})) /\
    (List.length (invocations sid' (trace_of true jb)) <= 1)%nat /\
    (asks o' (trace_of false jb) <> [] -> settled true jb -> List.length (invocations sid' (trace_of true jb)) = 1%nat).
Proof.
  intros mods m sb service room answers F H k Hk a f calls i Ha Hi Hs ja R U o sid p rest input Em Hr Hc.
  pose proof (registered_few mods a F) as Lf. assert (Lc : len calls < 2 ^ 32 - 1). { rewrite Forall_forall in F. exact (F _ (nth_error_In _ _ Ha)). }
  pose proof (import_small k calls i Lc) as Ix.
  destruct (C100_handler_invoked_once (registered mods a) _ _ _ _ ltac:(lia) ja R U true o k sid p input Hk Hc) as [One Must]. cbn [negb] in One, Must.
  assert (Ep : p = {| py_data := py_data p; py_meta := be 4 (import_after calls k i) ++ rest |}) by (rewrite <- Em; now destruct p).
  pose proof (linked_as k mods m F H a f calls i Ha Hi Hs) as Li.
  rewrite (selected_import _ _ _ _ _ _ Ix Hr _ Ep) in One, Must. unfold import_handlers in One, Must.
  split; [|split].
  - intros No. destruct (handler m a k (import_after calls k i)) as [d|]; [destruct Li as (h & L1 & _); destruct (No _ _ L1)|].
    destruct One as [One|(h & S & _)]; [exact One|discriminate S].
  - intros (b & h & Se) As [S1 S2]. destruct (handler m a k (import_after calls k i)) as [d|]; [|destruct (Li _ _ Se)].
    rewrite (Must As S1 S2 _ _ eq_refl). reflexivity.
  - intros b jb o' sid' Rb Ub Rl. destruct (relayed_payload mods m F H sb service room answers k Hk a f calls i Ha Hi Hs ja R U o sid p rest input Em Hr Hc b jb o' sid' Rl) as (idx & h & input' & L1 & L2 & L3 & L4).
    pose proof (registered_few mods b F) as Lg.
    destruct (C100_handler_invoked_once (registered mods b) _ _ _ _ ltac:(lia) jb Rb Ub false o' k sid' _ input' Hk L4) as [One' Must']. cbn [negb] in One', Must'.
    rewrite (selected_export _ _ _ _ _ _ _ _ Hk L3 Hr L2) in One', Must'. split; [|split].
    + intros x Hx. destruct One' as [One'|(h' & S & One')]; rewrite One' in Hx; [destruct Hx|]. destruct Hx as [<-|[]]. injection S as <-. exists h, (be 4 idx). split; [exact L1|]. split; reflexivity.
    + destruct One' as [One'|(h' & S & One')]; rewrite One'; cbn; lia.
    + intros As [S1 S2]. rewrite (Must' As S1 S2 _ _ eq_refl). reflexivity.
Qed.

(** *** What the caller is told *)
Lemma frames_firstn : forall sid ks n, exists n', firstn n (flat_map (stream_frame sid) ks) = flat_map (stream_frame sid) (firstn n' ks).
Proof.
  intros sid ks. induction ks as [|k ks IH]; intros n; [exists 0%nat; now rewrite firstn_nil|]. destruct n as [|n]; [exists 0%nat; reflexivity|].
  destruct k; cbn [flat_map stream_frame app].
  1-3: destruct (IH n) as (n' & E); exists (S n'); cbn [firstn flat_map stream_frame app]; now rewrite E.
  destruct (IH (S n)) as (n' & E). exists (S n'). exact E.
Qed.
Lemma until_firstn : forall ks n, until_end (firstn n (until_end ks)) = firstn n (until_end ks).
Proof.
  induction ks as [|k ks IH]; intros n; [now rewrite firstn_nil|]. destruct n as [|n]; [reflexivity|]. destruct k; cbn [until_end firstn]; [now rewrite IH| | |]; rewrite firstn_nil; reflexivity.
Qed.
Lemma relay_stream : forall O C sid ks, flat_map (relay_frame sid) (flat_map (FluxFacts.visible (relay_handlers (O := O) (C := C))) ks) = flat_map (stream_frame sid) ks.
Proof. intros O C sid ks. induction ks as [|k ks IH]; [reflexivity|]. cbn [flat_map]. rewrite flat_map_app, IH. f_equal. now destruct k. Qed.
Lemma stream_uncancelled : forall exported imported sb behaves room, len exported < 2 ^ 32 ->
  forall j, wruns exported imported sb behaves room j -> fits room j ->
  forall c o sid p input, In (HCalled o RS sid p input) (trace_of c j) -> forall x, ~ In (FCancel x) (on sid (sd_out (at_side (negb c) j))).
Proof.
  intros exported imported sb behaves room L j R U c o sid p input Hc x Hx. pose proof (wasm_inv exported imported sb behaves room L j R U) as J.
  unfold on in Hx. apply filter_In in Hx. destruct Hx as [X1 X2]. apply N.eqb_eq in X2.
  assert (Pf : N.odd (frame_stream (FCancel x)) = c) by (rewrite X2; exact (wcall_parity _ _ _ _ j c o _ _ _ _ J Hc)).
  destruct (won_peer_stream exported imported sb behaves L j c _ J X1 Pf) as [r R1 R2 M|k r text R1 R2 R3 M|r h q y R1 R2 R3 B M|k r h q R1 R2 K R3 M].
  - destruct (wstream_requests exported imported sb behaves j c o RS sid p input RC r J (or_introl eq_refl) Hc R1 ltac:(congruence)) as (_ & Z & _). discriminate.
  - discriminate.
  - destruct y; discriminate.
  - destruct M.
Qed.
(** If the frames written for the caller are those of the calls [ks] on a sink. *)
Lemma told_beginning : forall exported imported sb behaves room, len exported < 2 ^ 32 ->
  forall j, wruns exported imported sb behaves room j -> fits room j ->
  forall c o k sid p input, k = RS \/ k = RC -> In (HCalled o k sid p input) (trace_of c j) -> subscribed_first o (trace_of c j) ->
  let written := on sid (sd_out (at_side (negb c) j)) in
  (k = RC -> forall x, ~ In (FCancel x) written) ->
  forall ks, filter data_frame written = flat_map (stream_frame sid) (until_end ks) ->
  (exists n, got o (trace_of c j) = flat_map told (firstn n (until_end ks))) /\
  (List.length (received (trace_of c j)) = List.length (sd_out (at_side (negb c) j)) -> got o (trace_of c j) = flat_map told (until_end ks)).
Proof.
  intros exported imported sb behaves room L j R U c o k sid p input Hk Hc Sf written Nc ks F.
  assert (Nc' : forall x, ~ In (FCancel x) written).
  { destruct Hk as [-> | ->]; [exact (stream_uncancelled exported imported sb behaves room L j R U c o sid p input Hc)|exact (Nc eq_refl)]. }
  destruct (C100_in_order exported imported sb behaves room L j R U c o k sid p input Hk Hc Sf) as [(n & P) Q].
  { fold written. apply closed_data; [exact Nc'|]. rewrite F. apply closed_frames. }
  fold written in P, Q. split.
  - destruct (filter_firstn _ data_frame n written) as (n1 & E1). rewrite F in E1. destruct (frames_firstn sid (until_end ks) n1) as (n2 & E2). rewrite E2 in E1.
    exists n2. rewrite P, carried_data, E1; [apply carried_frames|]. intros x Hx. exact (Nc' x (firstn_in _ _ _ _ Hx)).
  - intros D. rewrite (Q D), (carried_data _ Nc'), F. apply carried_frames.
Qed.
(** What a subscriber of the flux behind a call sees if that flux was given [ks]. *)
Lemma subscriber_told : forall subs wasm users sched s hm, ProcProps.announces subs -> Forall ProcProps.usage users ->
  let called := ProcProps.processor (V := pay) (E := bytes) subs wasm users sched in
  FluxModel.fc_stack called = [] -> nth_error (FluxModel.fc_subs called) s = Some hm -> ~ In FluxModel.KCancel (FluxFacts.fcalls s (FluxModel.fc_trace called)) ->
  forall ks, ProcProps.to_sub s (ProcProps.routed 0 (FluxModel.fc_trace called)) = map as_call (flat_map told (until_end ks)) ->
  FluxFacts.delivered s (FluxModel.fc_trace called) = flat_map (FluxFacts.visible (FluxModel.fs_h hm)) (until_end ks).
Proof.
  intros subs wasm users sched s hm An Us called H1 H2 H3 ks H4.
  pose proof (ProcProps.C88_subscriber_sees pay bytes subs wasm users sched s hm An Us H1 H2 H3) as V. fold called in V. rewrite V, H4.
  pose proof (effective_told ks) as E. cbn [flat_map] in E. rewrite app_nil_r in E. rewrite E.
  generalize (until_end ks) as l. induction l as [|y l IH]; [reflexivity|]. cbn [filter flat_map]. destruct y; cbn [FluxFacts.is_cancel negb flat_map]; rewrite IH; reflexivity.
Qed.

(** The flux behind the caller's call is given, in order, what the flux of the
    exporter's handler gave up to its end: at every moment a beginning of it, and
    all of it once everything has arrived at the host of the exporter and at the
    caller; the caller's subscriber then sees what it would have seen of the
    flux of the handler itself. *)
Theorem C105_stream_across :
  forall mods m sb service room answers, Forall (fun x => len (snd x) < 2 ^ 32 - 1) mods -> load_all (mesh_tables mods) mesh_new = Ok m ->
  forall k, k = RS \/ k = RC ->
  forall a f calls i, nth_error mods a = Some (f, calls) -> In (CImport k i) calls -> exported_as k mods i ->
  forall ja, instance_runs mods m sb service room answers a ja -> fits (room a) ja ->
  forall o sid p rest input, py_meta p = be 4 (import_after calls k i) ++ rest -> 4 <= len rest -> In (HCalled o k sid p input) (trace_of true ja) -> subscribed_first o (trace_of true ja) ->
  forall b jb o' sid', instance_runs mods m sb service room answers b jb -> fits (room b) jb -> relayed_call m k a ja sid b jb o' sid' -> subscribed_first o' (trace_of false jb) ->
  let from_relay := on sid (sd_out (at_side false ja)) in let from_exporter := on sid' (sd_out (at_side true jb)) in
  (k = RC -> forall x, ~ In (FCancel x) from_relay /\ ~ In (FCancel x) from_exporter) ->
  forall C St wasm (source : nat -> list (FluxModel.fact pay bytes frame C)) code (st : St) threads sched,
    (forall s, Forall FluxProps.silent (source s)) ->
    (forall k t st st' l, code k t st = Some (st', l) -> Forall FluxProps.silent l) ->
    Forall (Forall FluxProps.silent) threads ->
    let served := FluxModel.frun wasm source code (0 :: 0 :: sched)%nat (FluxModel.finit st ([FluxModel.FSubscribe (emit sid')] :: threads)) in
    FluxModel.fc_stack served = [] -> filter data_frame from_exporter = FluxProps.observed (FluxModel.fc_trace served) ->
  forall subs wasm' users sched' s hm, ProcProps.announces subs -> Forall ProcProps.usage users ->
    let relay := ProcProps.processor subs wasm' users sched' in
    FluxModel.fc_stack relay = [] -> nth_error (FluxModel.fc_subs relay) s = Some hm -> FluxModel.fs_h hm = relay_handlers ->
    ~ In FluxModel.KCancel (FluxFacts.fcalls s (FluxModel.fc_trace relay)) ->
    ProcProps.to_sub s (ProcProps.routed 0 (FluxModel.fc_trace relay)) = map as_call (got o' (trace_of false jb)) ->
    filter data_frame from_relay = flat_map (relay_frame sid) (FluxFacts.delivered s (FluxModel.fc_trace relay)) ->
  let ks := until_end (FluxFacts.fcalls 0 (FluxModel.fc_trace served)) in
  (exists n, got o (trace_of true ja) = flat_map told (firstn n ks)) /\
  (List.length (received (trace_of false jb)) = List.length (sd_out (at_side true jb)) ->
   List.length (received (trace_of true ja)) = List.length (sd_out (at_side false ja)) ->
   got o (trace_of true ja) = flat_map told ks /\
   forall subs wasm' users sched' s hm, ProcProps.announces subs -> Forall ProcProps.usage users ->
    let called := ProcProps.processor subs wasm' users sched' in
    FluxModel.fc_stack called = [] -> nth_error (FluxModel.fc_subs called) s = Some hm -> ~ In FluxModel.KCancel (FluxFacts.fcalls s (FluxModel.fc_trace called)) ->
    ProcProps.to_sub s (ProcProps.routed 0 (FluxModel.fc_trace called)) = map as_call (got o (trace_of true ja)) ->
    FluxFacts.delivered s (FluxModel.fc_trace called) = flat_map (FluxFacts.visible (FluxModel.fs_h hm)) ks).
Proof.
  intros mods m sb service room answers F H k Hk a f calls i Ha Hi Hs ja R U o sid p rest input Em Hr Hc Sf b jb o' sid' Rb Ub Rl Sf' from_relay from_exporter Nc
    C St wasm source code st threads sched A1 A2 A3 served Hst Hw subs wasm' users sched' s hm An Us relay H1 H2 H3 H4 H5 H6 ks.
  pose proof (registered_few mods a F) as La. pose proof (registered_few mods b F) as Lb.
  destruct (relayed_payload mods m F H sb service room answers k Hk a f calls i Ha Hi Hs ja R U o sid p rest input Em Hr Hc b jb o' sid' Rl) as (idx & h & input' & _ & _ & _ & Hc').
  pose proof (C62_events_become_frames C St wasm source code st threads sched sid' A1 A2 A3 Hst) as Fr. fold served ks in Fr. rewrite <- Hw in Fr.
  destruct (told_beginning (registered mods b) _ _ _ _ ltac:(lia) jb Rb Ub false o' k sid' _ input' Hk Hc' Sf' (fun E x => proj2 (Nc E x)) _ Fr) as [(n & P) Q]. fold ks in P, Q.
  assert (Via : forall l, until_end l = l -> got o' (trace_of false jb) = flat_map told l -> filter data_frame from_relay = flat_map (stream_frame sid) (until_end l)).
  { intros l El Eg. rewrite Eg, <- El in H5. pose proof (subscriber_told subs wasm' users sched' s hm An Us H1 H2 H4 l H5) as V. fold relay in V. rewrite H6, V, H3. apply relay_stream. }
  assert (Kn : forall n, until_end (firstn n ks) = firstn n ks) by (intros; apply until_firstn).
  assert (Kk : until_end ks = ks). { rewrite <- (firstn_all ks) at 1. rewrite Kn. apply firstn_all. }
  split.
  - destruct (told_beginning (registered mods a) _ _ _ _ ltac:(lia) ja R U true o k sid p input Hk Hc Sf (fun E x => proj1 (Nc E x)) _ (Via _ (Kn n) P)) as [(n' & P') _].
    rewrite Kn, firstn_firstn in P'. exists (Nat.min n' n). exact P'.
  - intros D' D. specialize (Q D').
    destruct (told_beginning (registered mods a) _ _ _ _ ltac:(lia) ja R U true o k sid p input Hk Hc Sf (fun E x => proj1 (Nc E x)) _ (Via _ Kk Q)) as [_ Q'].
    rewrite Kk in Q'. specialize (Q' D). split; [exact Q'|].
    intros subs2 wasm2 users2 sched2 s2 hm2 An2 Us2 called G1 G2 G3 G4. rewrite Q', <- Kk in G4.
    pose proof (subscriber_told subs2 wasm2 users2 sched2 s2 hm2 An2 Us2 G1 G2 G3 ks G4) as V. fold called in V. rewrite Kk in V. exact V.
Qed.
(** If no module exports the operation, the caller is told nothing but that. *)
Lemma subseq_in : forall A (l l' : list A), subseq l l' -> forall x, In x l -> In x l'.
Proof. intros A l l' H. induction H; intros y Hy; [exact Hy|right; auto|]. destruct Hy as [->|Hy]; [now left|right; auto]. Qed.
Theorem C105_nobody_exports :
  forall mods m sb service room answers, Forall (fun x => len (snd x) < 2 ^ 32 - 1) mods -> load_all (mesh_tables mods) mesh_new = Ok m ->
  forall k, k = RS \/ k = RC ->
  forall a f calls i, nth_error mods a = Some (f, calls) -> In (CImport k i) calls -> (forall b h k', ~ serves_as k' mods i b h) ->
  forall ja, instance_runs mods m sb service room answers a ja -> fits (room a) ja ->
  forall o sid p rest input, py_meta p = be 4 (import_after calls k i) ++ rest -> 4 <= len rest -> In (HCalled o k sid p input) (trace_of true ja) ->
  forall x, In x (got o (trace_of true ja)) -> x = SError [110; 111; 116; 95; 102; 111; 117; 110; 100] \/ x = SComplete.
Proof.
  intros mods m sb service room answers F H k Hk a f calls i Ha Hi No ja R U o sid p rest input Em Hr Hc x Hx.
  pose proof (registered_few mods a F) as Lf. assert (Lc : len calls < 2 ^ 32 - 1). { rewrite Forall_forall in F. exact (F _ (nth_error_In _ _ Ha)). }
  pose proof (import_small k calls i Lc) as Ix.
  assert (Hs : exported_as k mods i). { intros y k' h Hy Hz. destruct y as [g c]. apply In_nth_error in Hy. destruct Hy as (b & Hy). destruct (No b h k'). exists g, c. auto. }
  pose proof (linked_as k mods m F H a f calls i Ha Hi Hs) as Li.
  destruct (handler m a k (import_after calls k i)) as [d|] eqn:Ed; [destruct Li as (h & L1 & _); destruct (No _ _ _ L1)|].
  assert (Ep : p = {| py_data := py_data p; py_meta := be 4 (import_after calls k i) ++ rest |}) by (rewrite <- Em; now destruct p).
  assert (S : selected (registered mods a) (import_handlers m a) false k p = None). { rewrite (selected_import _ _ _ _ _ _ Ix Hr _ Ep). unfold import_handlers. now rewrite Ed. }
  assert (Rf : refusal p = [110; 111; 116; 95; 102; 111; 117; 110; 100]).
  { unfold refusal. rewrite Em, len_app. assert (Lb : forall x, len (be 4 x) = 4) by reflexivity. rewrite Lb. destruct (N.ltb_spec (4 + len rest) 8) as [|_]; [lia|reflexivity]. }
  pose proof (wasm_inv (registered mods a) _ _ _ _ ltac:(lia) ja R U) as J.
  apply (subseq_in _ _ _ (C100_nothing_invented (registered mods a) _ _ _ _ ltac:(lia) ja R U true o k sid p input Hk Hc)) in Hx. cbn [negb] in Hx.
  apply in_flat_map in Hx. destruct Hx as (g & G1 & G2). unfold on in G1. apply filter_In in G1. destruct G1 as [G1 G3]. apply N.eqb_eq in G3.
  assert (Pf : N.odd (frame_stream g) = true) by (rewrite G3; exact (wcall_parity _ _ _ _ ja true o _ _ _ _ J Hc)).
  destruct (won_peer_stream (registered mods a) _ _ _ ltac:(lia) ja true g J G1 Pf) as [r R1 R2 M|k' r text R1 R2 R3 M|r h q y R1 R2 R3 B M|k' r h q R1 R2 K R3 M]; cbn [negb] in *.
  - destruct g; cbn in M; try contradiction; cbn in G2; try contradiction. destruct G2 as [<-|[]]. now right.
  - destruct (wstream_requests _ _ _ _ ja true o k sid p input k' r J Hk Hc R1 ltac:(congruence)) as (_ & -> & Z1 & Z2).
    rewrite (reacts_selected _ _ _ _ _ p Z1 Z2), S in R3. injection R3 as _ <-. rewrite Rf in M.
    destruct g as [| | | |pl|e]; cbn [answer_of] in M; try discriminate M; [destruct (pl_next pl); discriminate M|]. injection M as M. cbn [carried] in G2. rewrite M in G2.
    destruct G2 as [<-|[<-|[]]]; [now left|now right].
  - destruct (wstream_requests _ _ _ _ ja true o k sid p input RR r J Hk Hc R1 ltac:(congruence)) as (_ & Z & _). subst k. destruct Hk; discriminate.
  - destruct (wstream_requests _ _ _ _ ja true o k sid p input k' r J Hk Hc R1 ltac:(congruence)) as (_ & -> & Z1 & Z2).
    rewrite (reacts_selected _ _ _ _ _ p Z1 Z2), S in R3. discriminate R3.
Qed.

(** *** A run: a module calls two streams it imports; another module exports one of
    them, whose handler gives two values and completes; nobody exports the other. *)
Lemma w_emit : forall exported imported behaves c k h p f j, In (HInvoke k (frame_stream f) h p) (trace_of c j) -> k = RS \/ k = RC ->
  match f with FPayload _ | FError _ => True | _ => False end -> w_runs exported imported behaves j -> w_runs exported imported behaves (C100_put c f j).
Proof. intros exported imported behaves c k h p f j H1 H2 H3 R. eapply wr_step; [exact R|]. unfold C100_put. eapply WEmit; eauto. Qed.
Definition C105_mods : list (bytes * list reg_call) :=
  [([1], [CImport RS ([97], [120]); CImport RS ([97], [99])]);
   ([2], [CExport RS ([97], [98]) 20; CExport RR ([97], [101]) 11; CExport RS ([97], [100]) 22; CExport RS ([97], [99]) 21])].
Definition C105_mesh : mesh := match load_all (mesh_tables C105_mods) mesh_new with Ok m => m | _ => mesh_new end.
Definition C105_pay : pay := {| py_data := [5]; py_meta := [0; 0; 0; 1; 0; 0; 0; 0; 77] |}.
Definition C105_none : pay := {| py_data := [6]; py_meta := [0; 0; 0; 0; 0; 0; 0; 0] |}.
Definition C105_sent : pay := {| py_data := [5]; py_meta := [0; 0; 0; 2; 0; 0; 0; 0; 77] |}.
Definition e_do := w_do (registered C105_mods 1) (import_handlers C105_mesh 1).
Definition e_get := w_get (registered C105_mods 1) (import_handlers C105_mesh 1).
Definition C105_b1 := e_do true (XJob 0) (e_get true (e_do false (XRequest 0 5) (e_do false (XSubscribe 0) (e_do false (XCall RS C105_sent false) joint_init)))).
Definition C105_b := e_get false (e_get false (e_get false (C100_put true (in_frame 2 InComplete) (C100_put true (in_frame 2 (InNext (C94_val 42))) (C100_put true (in_frame 2 (InNext (C94_val 41))) C105_b1))))).
Definition i_do := w_do (registered C105_mods 0) (import_handlers C105_mesh 0).
Definition i_get := w_get (registered C105_mods 0) (import_handlers C105_mesh 0).
Definition C105_a1 := i_do false (XJob 0) (i_do false (XJob 0) (i_get false (i_get false
  (i_do true (XRequest 1 5) (i_do true (XSubscribe 1) (i_do true (XCall RS C105_none false)
  (i_do true (XRequest 0 5) (i_do true (XSubscribe 0) (i_do true (XCall RS C105_pay false) joint_init))))))))).
Definition C105_a := i_get true (i_get true (i_get true (i_get true (C100_put false (in_frame 1 InComplete) (C100_put false (in_frame 1 (InNext (C94_val 42))) (C100_put false (in_frame 1 (InNext (C94_val 41))) C105_a1)))))).
(** The same before the last two frames of the relay have arrived. *)
Definition C105_early := i_get true (i_get true (C100_put false (in_frame 1 InComplete) (C100_put false (in_frame 1 (InNext (C94_val 42))) (C100_put false (in_frame 1 (InNext (C94_val 41))) C105_a1)))).
Definition C105_served : FluxModel.fconf pay bytes frame Empty_set unit :=
  FluxModel.frun true (fun s => [FluxModel.FCall s (FluxModel.KNext (C94_val 41)); FluxModel.FCall s (FluxModel.KNext (C94_val 42)); FluxModel.FCall s FluxModel.KComplete;
      FluxModel.FCall s (FluxModel.KNext (C94_val 43))]) (fun _ _ _ => None) (0 :: 0 :: repeat 0%nat 30)%nat
    (FluxModel.finit tt [[FluxModel.FSubscribe (emit 2)]]).
Definition C105_relay := ProcProps.processor (V := pay) (E := bytes) (fun _ => (None, None)) false
  [[FluxModel.FObs ProcProps.OSub; FluxModel.FSubscribe relay_handlers]
    ++ C94_push (FluxModel.KNext (C94_val 41)) ++ C94_push (FluxModel.KNext (C94_val 42)) ++ C94_push FluxModel.KComplete] (repeat 0%nat 40).
Definition C105_runs := instance_runs C105_mods C105_mesh (fun _ _ _ => true) (fun _ _ _ _ => False) (fun _ => C99_room) (fun _ _ _ _ => False).
Ltac subscribed_first_by j c :=
  let S := fresh in assert (S : forall o, subscribed_first o (trace_of c j)); [|apply S];
  let o := fresh in let t1 := fresh in let n := fresh in let t2 := fresh in let E := fresh in intros o t1 n t2 E; revert E;
  let l := eval vm_compute in (trace_of c j) in let X := fresh in assert (X : trace_of c j = l) by (vm_compute; reflexivity); rewrite X; clear X; intros E;
  repeat (destruct t1 as [|? t1]; [discriminate E || (injection E as <- <- <-; cbn; tauto)|]; injection E as <- E; cbn [In]); try (destruct t1; discriminate).
Example C105_example :
  Forall (fun x => len (snd x) < 2 ^ 32 - 1) C105_mods /\ load_all (mesh_tables C105_mods) mesh_new = Ok C105_mesh /\
  exported_as RS C105_mods ([97], [99]) /\ serves_as RS C105_mods ([97], [99]) 1 21 /\ (forall b h k, ~ serves_as k C105_mods ([97], [120]) b h) /\
  py_meta C105_pay = be 4 (import_after (registered C105_mods 0) RS ([97], [99])) ++ [0; 0; 0; 0; 77] /\
  py_meta C105_none = be 4 (import_after (registered C105_mods 0) RS ([97], [120])) ++ [0; 0; 0; 0] /\
  C105_runs 0 C105_a /\ fits C99_room C105_a /\ C105_runs 1 C105_b /\ fits C99_room C105_b /\ relayed_call C105_mesh RS 0 C105_a 1 1 C105_b 0 2 /\
  In (HCalled 0 RS 1 C105_pay false) (trace_of true C105_a) /\ In (HCalled 1 RS 3 C105_none false) (trace_of true C105_a) /\
  subscribed_first 0 (trace_of true C105_a) /\ subscribed_first 0 (trace_of false C105_b) /\
  settled false C105_a /\ settled true C105_b /\
  List.length (received (trace_of false C105_b)) = List.length (sd_out (at_side true C105_b)) /\ List.length (received (trace_of true C105_a)) = List.length (sd_out (at_side false C105_a)) /\ asks 0 (trace_of true C105_a) <> [] /\ asks 0 (trace_of false C105_b) <> [] /\
  invocations 2 (trace_of true C105_b) = [(RS, 21, C105_sent)] /\
  FluxModel.fc_stack C105_served = [] /\ filter data_frame (on 2 (sd_out (at_side true C105_b))) = FluxProps.observed (FluxModel.fc_trace C105_served) /\
  FluxModel.fc_stack C105_relay = [] /\ (exists hm, nth_error (FluxModel.fc_subs C105_relay) 0 = Some hm /\ FluxModel.fs_h hm = relay_handlers) /\
  ProcProps.to_sub 0 (ProcProps.routed 0 (FluxModel.fc_trace C105_relay)) = map as_call (got 0 (trace_of false C105_b)) /\
  filter data_frame (on 1 (sd_out (at_side false C105_a))) = flat_map (relay_frame 1) (FluxFacts.delivered 0 (FluxModel.fc_trace C105_relay)) /\
  got 0 (trace_of true C105_a) = [SNext (C94_val 41); SNext (C94_val 42); SComplete] /\ got 0 (trace_of true C105_early) = [SNext (C94_val 41)] /\
  got 1 (trace_of true C105_a) = [SError not_found; SComplete].
Proof.
  split; [repeat constructor|]. split; [vm_compute; reflexivity|].
  split. { intros x k h Hx He; cbn [C105_mods In] in Hx; repeat (destruct Hx as [<-|Hx]; [cbn [snd In] in He; repeat (destruct He as [He|He]; [try discriminate He; injection He; intros; subst; try discriminate; reflexivity|]); destruct He|]); destruct Hx. }
  split. { exists [2], (snd (nth 1 C105_mods ([], []))). split; [reflexivity|]. cbn. tauto. }
  split. { intros b h k (f & calls & H1 & H2). apply nth_error_In in H1. cbn [C105_mods In] in H1. repeat (destruct H1 as [H1|H1]; [injection H1 as <- <-; cbn [In] in H2; repeat (destruct H2 as [H2|H2]; [discriminate H2|]); destruct H2|]). destruct H1. }
  split; [vm_compute; reflexivity|]. split; [vm_compute; reflexivity|].
  split.
  { change (w_runs (registered C105_mods 0) (import_handlers C105_mesh 0) (at_instance (fun _ _ _ _ => False) (fun _ _ _ _ => False) 0) C105_a). unfold C105_a, i_get, i_do.
    do 4 w_act. do 3 (apply (w_emit _ _ _ false RS 1 C105_pay); [vm_compute; tauto|now left|exact I|]). unfold C105_a1, i_get, i_do. do 10 w_act. constructor. }
  split; [w_fits C105_a|]. split.
  { change (w_runs (registered C105_mods 1) (import_handlers C105_mesh 1) (at_instance (fun _ _ _ _ => False) (fun _ _ _ _ => False) 1) C105_b). unfold C105_b, e_get, e_do.
    do 3 w_act. do 3 (apply (w_emit _ _ _ true RS 21 C105_sent); [vm_compute; tauto|now left|exact I|]). unfold C105_b1, e_get, e_do. do 5 w_act. constructor. }
  split; [w_fits C105_b|]. split.
  { exists 1, C105_pay, {| d_inst := 1; d_index := 2 |}, (py_meta C105_sent), false. split; [vm_compute; tauto|]. split; [vm_compute; reflexivity|]. split; [vm_compute; reflexivity|]. vm_compute; tauto. }
  split; [vm_compute; tauto|]. split; [vm_compute; tauto|]. split; [subscribed_first_by C105_a true|]. split; [subscribed_first_by C105_b false|].
  split; [vm_compute; tauto|]. split; [vm_compute; tauto|]. split; [vm_compute; tauto|]. split; [vm_compute; tauto|].
  split; [vm_compute; discriminate|]. split; [vm_compute; discriminate|]. split; [vm_compute; reflexivity|]. split; [vm_compute; reflexivity|]. split; [vm_compute; reflexivity|]. split; [vm_compute; reflexivity|].
  split; [vm_compute; eexists; split; reflexivity|]. vm_compute; tauto.
Qed.
Print Assumptions C105_exporter_invoked.
Print Assumptions C105_stream_across.
Print Assumptions C105_nobody_exports.
