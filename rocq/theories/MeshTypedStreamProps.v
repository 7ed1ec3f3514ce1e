(** C111: typed streams and channels between the modules of a mesh. *)
From Verif Require Import Base BaseFacts FramesModel FramesProofs FramesProps WasmModel WasmProofs TcpModel InvokeModel InvokeProofs InvokeProps TransformModel TransformProps LookupModel
  HandlerModel HandlerFacts HandlerProps HandlerCallProps HandlerServeProps JointModel JointFacts JointProps StreamFacts StreamProps ChannelFacts ChannelProps StreamStubModel StreamStubProps
  WasmEndModel WasmCallFacts WasmCallProps WasmJointModel WasmJointFacts WasmJointProps WasmStreamProps WasmChannelProps WasmTypedProps MeshModel MeshProps MeshCallModel MeshCallProps MeshStreamModel MeshStreamProps MeshChannelProps.
From Verif Require FluxModel FluxFacts FluxProps ProcProps.

(** ** C111 *)
(** A module calls a stream or channel it imports.  The exporter's service
    answers with a typed flux, the caller's host relays what it is told, and the client's method maps
    it back: when everything has arrived, the subscriber of the flux that the
    client's method returned has seen what it would have seen of the service's flux. *)
Theorem C111_typed_stream :
  forall A (tr : transform A) text mods m sb service room answers, Forall (fun x => len (snd x) < 2 ^ 32 - 1) mods -> load_all (mesh_tables mods) mesh_new = Ok m ->
  forall k, k = RS \/ k = RC ->
  forall a f calls i, nth_error mods a = Some (f, calls) -> In (CImport k i) calls -> exported_as k mods i ->
  forall ja, instance_runs mods m sb service room answers a ja -> fits (room a) ja ->
  forall o sid p rest input, py_meta p = be 4 (import_after calls k i) ++ rest -> 4 <= len rest -> In (HCalled o k sid p input) (trace_of true ja) -> subscribed_first o (trace_of true ja) ->
  forall b jb o' sid', instance_runs mods m sb service room answers b jb -> fits (room b) jb -> relayed_call m k a ja sid b jb o' sid' -> subscribed_first o' (trace_of false jb) ->
  let from_relay := on sid (sd_out (at_side false ja)) in let from_exporter := on sid' (sd_out (at_side true jb)) in
  (k = RC -> forall x, ~ In (FCancel x) from_relay /\ ~ In (FCancel x) from_exporter) ->
  forall C St wasm (source : nat -> list (FluxModel.fact A bytes frame C)) code (st : St) threads sched,
    (forall s, Forall FluxProps.silent (source s)) ->
    (forall k t st st' l, code k t st = Some (st', l) -> Forall FluxProps.silent l) ->
    Forall (Forall FluxProps.silent) threads ->
    let served := FluxModel.frun wasm source code (0 :: 0 :: sched)%nat (FluxModel.finit st ([FluxModel.FSubscribe (typed_emit tr text sid')] :: threads)) in
    FluxModel.fc_stack served = [] -> filter data_frame from_exporter = FluxProps.observed (FluxModel.fc_trace served) ->
    (forall v, In (FluxModel.KNext v) (pushed served) -> survives tr v) ->
  forall subs wasm2 users sched2 s hm, ProcProps.announces subs -> Forall ProcProps.usage users ->
    let relay := ProcProps.processor subs wasm2 users sched2 in
    FluxModel.fc_stack relay = [] -> nth_error (FluxModel.fc_subs relay) s = Some hm -> FluxModel.fs_h hm = relay_handlers ->
    ~ In FluxModel.KCancel (FluxFacts.fcalls s (FluxModel.fc_trace relay)) ->
    ProcProps.to_sub s (ProcProps.routed 0 (FluxModel.fc_trace relay)) = map as_call (got o' (trace_of false jb)) ->
    filter data_frame from_relay = flat_map (relay_frame sid) (FluxFacts.delivered s (FluxModel.fc_trace relay)) ->
  List.length (received (trace_of false jb)) = List.length (sd_out (at_side true jb)) ->
  List.length (received (trace_of true ja)) = List.length (sd_out (at_side false ja)) ->
  forall C' St' wasm' source' code' (st' : St') fn fc fe dr df nr threads' sched',
    FluxProps.quiet_world (C := C') source' code' (typed_in tr text) (Some fn) (Some fc) (Some fe) dr df -> Forall (Forall FluxProps.silent) threads' ->
    let called := FluxProps.mapped_run wasm' source' code' st' (typed_in tr text) (Some fn) (Some fc) (Some fe) dr df nr threads' sched' in
    FluxModel.fc_stack called = [] -> FluxFacts.fcalls 0 (FluxModel.fc_trace called) = map as_call (got o (trace_of true ja)) ->
    seen called = flat_map shown (pushed served).
Proof.
  intros A tr text mods m sb service room answers F H k Hk a f calls i Ha Hi Hs ja R U o sid p rest input Em Hr Hc Sf b jb o' sid' Rb Ub Rl Sf' from_relay from_exporter Nc
    C St wasm source code st threads sched A1 A2 A3 served Hst Hw Sv subs wasm2 users sched2 s hm An Us relay H1 H2 H3 H4 H5 H6 D' D
    C' St' wasm' source' code' st' fn fc fe dr df nr threads' sched' W T called Hcs Hcc.
  pose proof (registered_few mods a F) as La. pose proof (registered_few mods b F) as Lb.
  destruct (relayed_payload mods m F H sb service room answers k Hk a f calls i Ha Hi Hs ja R U o sid p rest input Em Hr Hc b jb o' sid' Rl) as (idx & h & input' & _ & _ & _ & Hc').
  pose proof (typed_frames A tr text C St wasm source code st threads sched sid' A1 A2 A3 Hst) as Fr. fold served in Fr. rewrite <- Hw in Fr.
  assert (Un : map (call_map (typed_out tr text)) (pushed served) = until_end (map (call_map (typed_out tr text)) (pushed served))).
  { rewrite <- until_effective. symmetry. apply effective_map. intros v Hv. destruct (Sv v Hv) as (bs & E1 & _). exists {| py_data := bs; py_meta := [] |}. unfold typed_out. now rewrite E1. }
  rewrite Un in Fr.
  pose proof (wcarried_stream (registered mods b) _ _ _ _ ltac:(lia) jb Rb Ub false o' k sid' _ input' Hk Hc' Sf' D' (fun E x => proj2 (Nc E x)) _ Fr) as G.
  rewrite G in H5. pose proof (subscriber_told subs wasm2 users sched2 s hm An Us H1 H2 H4 _ H5) as V. fold relay in V. rewrite V, H3, relay_stream in H6.
  pose proof (wcarried_stream (registered mods a) _ _ _ _ ltac:(lia) ja R U true o k sid p input Hk Hc Sf D (fun E x => proj1 (Nc E x)) _ H6) as G2. rewrite <- Un in G2.
  pose proof (mapped_seen pay A C' St' wasm' source' code' st' (typed_in tr text) fn fc fe dr df nr threads' sched' W T Hcs) as M. fold called in M. rewrite M. unfold pushed at 1. rewrite Hcc, G2.
  unfold pushed. now apply told_back.
Qed.
(** The typed input of a channel that a module calls, under the conditions of C110:
    when everything has arrived, the exporter's service has seen what it would have
    seen of the caller's input. *)
Theorem C111_typed_input :
  forall A (tr : transform A) text mods m sb service room answers, Forall (fun x => len (snd x) < 2 ^ 32 - 1) mods -> load_all (mesh_tables mods) mesh_new = Ok m ->
  forall a f calls i, nth_error mods a = Some (f, calls) -> In (CImport RC i) calls -> exported_as RC mods i ->
  forall ja, instance_runs mods m sb service room answers a ja -> fits (room a) ja ->
  forall o sid p rest, py_meta p = be 4 (import_after calls RC i) ++ rest -> 4 <= len rest -> In (HCalled o RC sid p true) (trace_of true ja) ->
  (forall x, ~ In (FCancel x) (on sid (sd_out (at_side true ja)))) ->
  forall C St wasm source code (st : St) fn fc fe dr df nr threads sched,
    FluxProps.quiet_world (C := C) source code (typed_out tr text) (Some fn) (Some fc) (Some fe) dr df -> Forall (Forall FluxProps.silent) threads ->
    let given := FluxProps.mapped_run wasm source code st (typed_out tr text) (Some fn) (Some fc) (Some fe) dr df nr threads sched in
    FluxModel.fc_stack given = [] -> feds o (trace_of true ja) = flat_map input_of (FluxProps.observed (FluxModel.fc_trace given)) ->
    (forall v, In (FluxModel.KNext v) (pushed given) -> survives tr v) ->
  forall t1 hx qx t2, trace_of false ja = t1 ++ HInvoke RC sid hx qx :: t2 -> flat_map carried (recvd sid t1) = [] ->
  exists ox nx t3, t2 = HDemand ox nx :: t3 /\
  forall b jb o' sid' p', instance_runs mods m sb service room answers b jb -> fits (room b) jb -> relayed_call m RC a ja sid b jb o' sid' ->
  In (HCalled o' RC sid' p' true) (trace_of false jb) -> (forall x, ~ In (FCancel x) (on sid' (sd_out (at_side false jb)))) ->
  forall subs wasm2 users sched2 s hm, ProcProps.announces subs -> Forall ProcProps.usage users ->
    let relay := ProcProps.processor subs wasm2 users sched2 in
    FluxModel.fc_stack relay = [] -> nth_error (FluxModel.fc_subs relay) s = Some hm -> FluxModel.fs_h hm = relay_handlers ->
    ~ In FluxModel.KCancel (FluxFacts.fcalls s (FluxModel.fc_trace relay)) ->
    ProcProps.to_sub s (ProcProps.routed 0 (FluxModel.fc_trace relay)) = map as_call (got ox (trace_of false ja)) ->
    feds o' (trace_of false jb) = flat_map input_of (FluxFacts.delivered s (FluxModel.fc_trace relay)) ->
  List.length (received (trace_of false ja)) = List.length (sd_out (at_side true ja)) ->
  List.length (received (trace_of true jb)) = List.length (sd_out (at_side false jb)) ->
  forall u1 h q u2, trace_of true jb = u1 ++ HInvoke RC sid' h q :: u2 ->
    serves_as RC mods i b h /\
    exists oy n u3, u2 = HDemand oy n :: u3 /\
    forall C' St' wasm' source' code' (st' : St') fn' fc' fe' dr' df' nr' threads' sched',
      FluxProps.quiet_world (C := C') source' code' (typed_in tr text) (Some fn') (Some fc') (Some fe') dr' df' -> Forall (Forall FluxProps.silent) threads' ->
      let taken := FluxProps.mapped_run wasm' source' code' st' (typed_in tr text) (Some fn') (Some fc') (Some fe') dr' df' nr' threads' sched' in
      FluxModel.fc_stack taken = [] -> FluxFacts.fcalls 0 (FluxModel.fc_trace taken) = map as_call (got oy (trace_of true jb)) ->
      seen taken = flat_map shown (pushed given).
Proof.
  intros A tr text mods m sb service room answers F H a f calls i Ha Hi Hs ja R U o sid p rest Em Hr Hc Nc C St wasm source code st fn fc fe dr df nr threads sched W T given Hg Hf Sv t1 hx qx t2 E Ea.
  pose proof (mapped_seen A pay C St wasm source code st (typed_out tr text) fn fc fe dr df nr threads sched W T Hg) as M. fold given in M. rewrite input_seen, M in Hf.
  assert (Ef : map (call_map (typed_out tr text)) (pushed given) = FluxFacts.effective (map (call_map (typed_out tr text)) (pushed given))).
  { symmetry. apply effective_map. intros v Hv. destruct (Sv v Hv) as (bs & E1 & _). exists {| py_data := bs; py_meta := [] |}. unfold typed_out. now rewrite E1. }
  assert (En : ends_once (feds o (trace_of true ja))) by (rewrite Hf, Ef; apply input_ends).
  destruct (C110_input_across mods m sb service room answers F H a f calls i Ha Hi Hs ja R U o sid p rest Em Hr Hc En Nc t1 hx qx t2 E Ea) as (ox & nx & t3 & Et & K).
  exists ox, nx, t3. split; [exact Et|].
  intros b jb o' sid' p' Rb Ub Rl Hc' Nc' subs wasm2 users sched2 s hm An Us relay H1 H2 H3 H4 H5 H6 D1 D2 u1 h q u2 Eu.
  destruct (K b jb o' sid' p' Rb Ub Rl Hc' Nc' subs wasm2 users sched2 s hm An Us H1 H2 H3 H4 H5 H6 u1 h q u2 Eu) as (S1 & _ & _ & oy & n & u3 & Eu3 & _ & G).
  destruct (G D1 D2) as [G1 _]. rewrite Hf, input_heard in G1. split; [exact S1|]. exists oy, n, u3. split; [exact Eu3|].
  intros C' St' wasm' source' code' st' fn' fc' fe' dr' df' nr' threads' sched' W' T' taken Ht Hk.
  pose proof (mapped_seen pay A C' St' wasm' source' code' st' (typed_in tr text) fn' fc' fe' dr' df' nr' threads' sched' W' T' Ht) as M'. fold taken in M'. rewrite M'. unfold pushed at 1. rewrite Hk, G1.
  unfold pushed. now apply told_back.
Qed.

(** *** A run: a channel of the mesh of C110, called with a typed input of two
    values, answered with two values; both complete. *)
Definition C111_a1 := m_get false (m_get false (m_get false (m_do true (XIn 0 InComplete) (m_do true (XIn 0 (InNext (C96_val 98))) (m_do true (XIn 0 (InNext (C96_val 97))) C110_a1))))).
Definition C111_a := m_get true (m_get true (m_get true (C100_put false (in_frame 1 InComplete) (C100_put false (in_frame 1 (InNext (C96_val 50))) (C100_put false (in_frame 1 (InNext (C96_val 49))) C111_a1))))).
Definition C111_b1 := x_get true (x_get true (x_get true (x_do false (XIn 0 InComplete) (x_do false (XIn 0 (InNext (C96_val 98))) (x_do false (XIn 0 (InNext (C96_val 97))) C110_b1))))).
Definition C111_b := x_get false (x_get false (x_get false (C100_put true (in_frame 2 InComplete) (C100_put true (in_frame 2 (InNext (C96_val 50))) (C100_put true (in_frame 2 (InNext (C96_val 49))) C111_b1))))).
Definition C111_users (x y : N) : list (list (FluxModel.fact pay bytes (ProcProps.pobs pay bytes) (FluxModel.fpcode pay bytes))) :=
  [[FluxModel.FObs ProcProps.OSub; FluxModel.FSubscribe relay_handlers]
    ++ C94_push (FluxModel.KNext (C96_val x)) ++ C94_push (FluxModel.KNext (C96_val y)) ++ C94_push FluxModel.KComplete].
Definition C111_relay (x y : N) := ProcProps.processor (fun _ => (None, None)) false (C111_users x y) (repeat 0%nat 40).
Lemma C111_usage : forall x y, Forall ProcProps.usage (C111_users x y).
Proof. intros x y. unfold C111_users, C94_push. cbn [app]. usage_by. Qed.
Lemma C111_runs_a : C110_runs 0 C111_a.
Proof.
  change (w_runs (registered C110_mods 0) (import_handlers C110_mesh 0) (at_instance (fun _ _ _ _ => False) (fun _ _ _ _ => False) 0) C111_a).
  unfold C111_a, m_get, m_do. do 3 w_act. do 3 (apply (w_emit _ _ _ false RC 1 C110_pay); [vm_compute; tauto|now right|exact I|]).
  unfold C111_a1, C110_a1, m_get, m_do. do 12 w_act. constructor.
Qed.
Lemma C111_runs_b : C110_runs 1 C111_b.
Proof.
  change (w_runs (registered C110_mods 1) (import_handlers C110_mesh 1) (at_instance (fun _ _ _ _ => False) (fun _ _ _ _ => False) 1) C111_b).
  unfold C111_b, x_get, x_do. do 3 w_act. do 3 (apply (w_emit _ _ _ true RC 31 C110_sent); [vm_compute; tauto|now right|exact I|]).
  unfold C111_b1, C110_b1, x_get, x_do. do 11 w_act. constructor.
Qed.
Definition C111_before : list hevent := Eval vm_compute in firstn 1 (trace_of false C111_a).
Definition C111_after : list hevent := Eval vm_compute in skipn 2 (trace_of false C111_a).
Definition C111_u1 : list hevent := Eval vm_compute in firstn 1 (trace_of true C111_b).
Definition C111_u2 : list hevent := Eval vm_compute in skipn 2 (trace_of true C111_b).
Example C111_example :
  load_all (mesh_tables C110_mods) mesh_new = Ok C110_mesh /\ exported_as RC C110_mods ([97], [99]) /\
  C110_runs 0 C111_a /\ fits C99_room C111_a /\ C110_runs 1 C111_b /\ fits C99_room C111_b /\
  py_meta C110_pay = be 4 (import_after (registered C110_mods 0) RC ([97], [99])) ++ [0; 0; 0; 0; 77] /\
  In (HCalled 0 RC 1 C110_pay true) (trace_of true C111_a) /\ subscribed_first 0 (trace_of true C111_a) /\
  relayed_call C110_mesh RC 0 C111_a 1 1 C111_b 0 2 /\ In (HCalled 0 RC 2 C110_sent true) (trace_of false C111_b) /\ subscribed_first 0 (trace_of false C111_b) /\
  (forall c x, ~ In (FCancel x) (on 1 (sd_out (at_side c C111_a))) /\ ~ In (FCancel x) (on 2 (sd_out (at_side c C111_b)))) /\
  List.length (received (trace_of false C111_b)) = List.length (sd_out (at_side true C111_b)) /\ List.length (received (trace_of true C111_a)) = List.length (sd_out (at_side false C111_a)) /\
  List.length (received (trace_of false C111_a)) = List.length (sd_out (at_side true C111_a)) /\ List.length (received (trace_of true C111_b)) = List.length (sd_out (at_side false C111_b)) /\
  (forall x y, Forall ProcProps.usage (C111_users x y)) /\
  (* the answer *)
  FluxModel.fc_stack C109_served = [] /\ filter data_frame (on 2 (sd_out (at_side true C111_b))) = FluxProps.observed (FluxModel.fc_trace C109_served) /\
  pushed C109_served = [FluxModel.KNext [49]; FluxModel.KNext [50]; FluxModel.KComplete] /\
  FluxModel.fc_stack (C111_relay 49 50) = [] /\ ~ In FluxModel.KCancel (FluxFacts.fcalls 0 (FluxModel.fc_trace (C111_relay 49 50))) /\
  (exists hm, nth_error (FluxModel.fc_subs (C111_relay 49 50)) 0 = Some hm /\ FluxModel.fs_h hm = relay_handlers) /\
  ProcProps.to_sub 0 (ProcProps.routed 0 (FluxModel.fc_trace (C111_relay 49 50))) = map as_call (got 0 (trace_of false C111_b)) /\
  filter data_frame (on 1 (sd_out (at_side false C111_a))) = flat_map (relay_frame 1) (FluxFacts.delivered 0 (FluxModel.fc_trace (C111_relay 49 50))) /\
  (let called := C96_taken (map as_call (got 0 (trace_of true C111_a))) in
   FluxModel.fc_stack called = [] /\ FluxFacts.fcalls 0 (FluxModel.fc_trace called) = map as_call (got 0 (trace_of true C111_a)) /\
   seen called = [FluxModel.ONext [49]; FluxModel.ONext [50]; FluxModel.OComplete]) /\
  (* the input *)
  FluxModel.fc_stack C97_given = [] /\ feds 0 (trace_of true C111_a) = flat_map input_of (FluxProps.observed (FluxModel.fc_trace C97_given)) /\
  trace_of false C111_a = C111_before ++ HInvoke RC 1 1 C110_pay :: C111_after /\ flat_map carried (recvd 1 C111_before) = [] /\ hd_error C111_after = Some (HDemand 0 5) /\
  FluxModel.fc_stack (C111_relay 97 98) = [] /\ ~ In FluxModel.KCancel (FluxFacts.fcalls 0 (FluxModel.fc_trace (C111_relay 97 98))) /\
  (exists hm, nth_error (FluxModel.fc_subs (C111_relay 97 98)) 0 = Some hm /\ FluxModel.fs_h hm = relay_handlers) /\
  ProcProps.to_sub 0 (ProcProps.routed 0 (FluxModel.fc_trace (C111_relay 97 98))) = map as_call (got 0 (trace_of false C111_a)) /\
  feds 0 (trace_of false C111_b) = flat_map input_of (FluxFacts.delivered 0 (FluxModel.fc_trace (C111_relay 97 98))) /\
  trace_of true C111_b = C111_u1 ++ HInvoke RC 2 31 C110_sent :: C111_u2 /\ hd_error C111_u2 = Some (HDemand 0 5) /\
  (let taken := C96_taken (map as_call (got 0 (trace_of true C111_b))) in
   FluxModel.fc_stack taken = [] /\ FluxFacts.fcalls 0 (FluxModel.fc_trace taken) = map as_call (got 0 (trace_of true C111_b)) /\
   seen taken = [FluxModel.ONext [97]; FluxModel.ONext [98]; FluxModel.OComplete]).
Proof.
  split; [exact (proj2 C110_loaded)|]. split; [exact C110_exported|]. split; [exact C111_runs_a|]. split; [w_fits C111_a|]. split; [exact C111_runs_b|]. split; [w_fits C111_b|].
  split; [vm_compute; reflexivity|]. split; [vm_compute; tauto|]. split; [subscribed_first_by C111_a true|].
  split. { exists 1, C110_pay, {| d_inst := 1; d_index := 2 |}, (py_meta C110_sent), true. split; [vm_compute; tauto|]. split; [vm_compute; reflexivity|]. split; [vm_compute; reflexivity|]. vm_compute; tauto. }
  split; [vm_compute; tauto|]. split; [subscribed_first_by C111_b false|]. split; [intros [] x; split; vm_compute; intuition discriminate|].
  do 4 (split; [vm_compute; reflexivity|]). split; [exact C111_usage|]. do 4 (split; [vm_compute; reflexivity|]). split; [vm_compute; intuition discriminate|].
  split; [vm_compute; eexists; split; reflexivity|]. do 2 (split; [vm_compute; reflexivity|]). split; [vm_compute; repeat split; reflexivity|].
  do 6 (split; [vm_compute; reflexivity|]). split; [vm_compute; intuition discriminate|]. split; [vm_compute; eexists; split; reflexivity|].
  do 4 (split; [vm_compute; reflexivity|]). vm_compute. repeat split; reflexivity.
Qed.
Print Assumptions C111_typed_stream.
Print Assumptions C111_typed_input.
