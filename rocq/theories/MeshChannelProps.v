(** C110: the input of a channel between the modules of a mesh. *)
From Verif Require Import Base BaseFacts FramesModel FramesProofs FramesProps WasmModel WasmProofs TcpModel InvokeModel InvokeProofs InvokeProps LookupModel
  HandlerModel HandlerFacts HandlerProps HandlerCallProps HandlerServeProps JointModel JointFacts JointProps StreamFacts StreamProps ChannelFacts ChannelProps
  WasmEndModel WasmCallFacts WasmCallProps WasmJointModel WasmJointFacts WasmJointProps WasmStreamProps WasmChannelProps MeshModel MeshProps MeshCallModel MeshCallProps MeshStreamModel MeshStreamProps.
From Verif Require FluxModel FluxFacts FluxProps ProcProps.
From Verif Require Import StreamStubModel.

(** [destination.RequestChannel], transport/wasmrs/mesh/mesh.go 287-293, hands the input of
    the handler to the host's call as it is.  That call subscribes to it with
    callbacks for values, the end and errors and makes no request on subscribing
    ([relay_handlers]); what each of them sends is [input_of], proxy/flux.go 86-108. *)

(** ** Specification *)
(** What an input emits, as a call on its subscriber. *)
Definition emission (x : inev) : FluxModel.fcall pay bytes :=
  match x with InNext p => FluxModel.KNext p | InComplete => FluxModel.KComplete | InError e => FluxModel.KError e end.

(** *** Helpers *)
Lemma emitted_effective : forall l, ends_once l -> FluxFacts.effective (map as_call (flat_map heard l)) = map emission l.
Proof.
  induction l as [|x l IH]; [reflexivity|]. cbn [ends_once]. intros [A B]. destruct x; cbn; [rewrite IH by exact B; reflexivity|subst l; reflexivity|subst l; reflexivity].
Qed.
Lemma ends_firstn : forall n l, ends_once l -> ends_once (firstn n l).
Proof.
  induction n as [|n IH]; intros [|x l]; cbn [firstn ends_once]; auto. intros [A B]. split; [|auto]. destruct x; auto; subst l; destruct n; reflexivity.
Qed.
Lemma relay_inputs : forall O C l, ends_once l ->
  flat_map input_of (flat_map (FluxFacts.visible (relay_handlers (O := O) (C := C))) (FluxFacts.effective (map as_call (flat_map heard l)))) = l.
Proof.
  intros O C l. induction l as [|x l IH]; [reflexivity|]. cbn [ends_once]. intros [A B]. destruct x; cbn; [rewrite IH by exact B; reflexivity|subst l; reflexivity|subst l; reflexivity].
Qed.
(** C107_guest_input_end_to_end for any caller, if nothing arrives early. *)
Lemma winput_given : forall exported imported sb behaves room, len exported < 2 ^ 32 ->
  forall j, wruns exported imported sb behaves room j -> fits room j ->
  forall c o sid p, In (HCalled o RC sid p true) (trace_of c j) ->
  ends_once (feds o (trace_of c j)) -> (forall x, ~ In (FCancel x) (on sid (sd_out (at_side c j)))) ->
  forall t1 h q t2, trace_of (negb c) j = t1 ++ HInvoke RC sid h q :: t2 -> flat_map carried (recvd sid t1) = [] ->
    exists o' n t3, t2 = HDemand o' n :: t3 /\
      (exists m, got o' (trace_of (negb c) j) = flat_map heard (firstn m (feds o (trace_of c j)))) /\
      (List.length (received (trace_of (negb c) j)) = List.length (sd_out (at_side c j)) -> got o' (trace_of (negb c) j) = flat_map heard (feds o (trace_of c j))).
Proof.
  intros exported imported sb behaves room L j R U c o sid p Hc En Nc t1 h q t2 E Ea. pose proof (wasm_inv exported imported sb behaves room L j R U) as J.
  destruct (C98_input_on_the_wire c _ _ _ _ _ _ (whistory _ _ _ _ j c J) (or_intror eq_refl) Hc) as [S _]. cbv iota in S.
  fold (trace_of c j) in S.
  assert (W : filter data_frame (on sid (sd_out (at_side c j))) = map (in_frame sid) (feds o (trace_of c j))).
  { rewrite (wown_out exported imported sb behaves room L j R U c sid (wcall_parity _ _ _ _ j c o RC sid p true J Hc)), sent_inputs. exact S. }
  assert (Cl : closed_last (on sid (sd_out (at_side c j)))) by (apply closed_data; [exact Nc|]; rewrite W; now apply closed_inputs).
  destruct (C107_in_order exported imported sb behaves room L j R U c o sid p true Hc t1 h q t2 E Ea Cl) as (o' & n & t3 & E3 & (m & A) & B).
  exists o', n, t3. split; [exact E3|]. split.
  - rewrite carried_data in A by (intros x Hx; apply firstn_in in Hx; exact (Nc x Hx)).
    destruct (filter_firstn _ data_frame m (on sid (sd_out (at_side c j)))) as (m' & Hm). rewrite Hm, W, firstn_map, heard_frames in A. eauto.
  - intros D. rewrite (B D), carried_data, W by exact Nc. apply heard_frames.
Qed.

(** ** C110 *)
(** A module calls a channel it imports with an input that ends once.  If none of
    it reaches the caller's host before that host ran the handler of the import,
    the handler's input is subscribed for the relayed call before anything reaches
    it, and neither call is cancelled: the exporter's own handler is invoked, and at every moment its
    input was given a beginning of what the caller's input emitted since the call
    was first requested from, in that order; all of it, when everything has arrived.
    Then a subscriber of the handler's input who subscribed before anything reached
    it, and did not cancel, has seen what the caller's input emitted. *)
Theorem C110_input_across :
  forall mods m sb service room answers, Forall (fun x => len (snd x) < 2 ^ 32 - 1) mods -> load_all (mesh_tables mods) mesh_new = Ok m ->
  forall a f calls i, nth_error mods a = Some (f, calls) -> In (CImport RC i) calls -> exported_as RC mods i ->
  forall ja, instance_runs mods m sb service room answers a ja -> fits (room a) ja ->
  forall o sid p rest, py_meta p = be 4 (import_after calls RC i) ++ rest -> 4 <= len rest -> In (HCalled o RC sid p true) (trace_of true ja) ->
  ends_once (feds o (trace_of true ja)) -> (forall x, ~ In (FCancel x) (on sid (sd_out (at_side true ja)))) ->
  forall t1 hx qx t2, trace_of false ja = t1 ++ HInvoke RC sid hx qx :: t2 -> flat_map carried (recvd sid t1) = [] ->
  exists ox nx t3, t2 = HDemand ox nx :: t3 /\
  forall b jb o' sid' p', instance_runs mods m sb service room answers b jb -> fits (room b) jb -> relayed_call m RC a ja sid b jb o' sid' ->
  In (HCalled o' RC sid' p' true) (trace_of false jb) -> (forall x, ~ In (FCancel x) (on sid' (sd_out (at_side false jb)))) ->
  forall subs wasm users sched s hm, ProcProps.announces subs -> Forall ProcProps.usage users ->
    let relay := ProcProps.processor subs wasm users sched in
    FluxModel.fc_stack relay = [] -> nth_error (FluxModel.fc_subs relay) s = Some hm -> FluxModel.fs_h hm = relay_handlers ->
    ~ In FluxModel.KCancel (FluxFacts.fcalls s (FluxModel.fc_trace relay)) ->
    ProcProps.to_sub s (ProcProps.routed 0 (FluxModel.fc_trace relay)) = map as_call (got ox (trace_of false ja)) ->
    feds o' (trace_of false jb) = flat_map input_of (FluxFacts.delivered s (FluxModel.fc_trace relay)) ->
  forall u1 h q u2, trace_of true jb = u1 ++ HInvoke RC sid' h q :: u2 ->
    serves_as RC mods i b h /\ py_data q = py_data p /\ (exists head, len head = 4 /\ py_meta q = head ++ rest) /\
    exists oy n u3, u2 = HDemand oy n :: u3 /\
      (exists l, got oy (trace_of true jb) = flat_map heard (firstn l (feds o (trace_of true ja)))) /\
      (List.length (received (trace_of false ja)) = List.length (sd_out (at_side true ja)) ->
       List.length (received (trace_of true jb)) = List.length (sd_out (at_side false jb)) ->
       got oy (trace_of true jb) = flat_map heard (feds o (trace_of true ja)) /\
       forall subs' wasm' users' sched' s' hm', ProcProps.announces subs' -> Forall ProcProps.usage users' ->
         let taken := ProcProps.processor subs' wasm' users' sched' in
         FluxModel.fc_stack taken = [] -> nth_error (FluxModel.fc_subs taken) s' = Some hm' -> ~ In FluxModel.KCancel (FluxFacts.fcalls s' (FluxModel.fc_trace taken)) ->
         ProcProps.to_sub s' (ProcProps.routed 0 (FluxModel.fc_trace taken)) = map as_call (got oy (trace_of true jb)) ->
         FluxFacts.delivered s' (FluxModel.fc_trace taken) = flat_map (FluxFacts.visible (FluxModel.fs_h hm')) (map emission (feds o (trace_of true ja)))).
Proof.
  intros mods m sb service room answers F H a f calls i Ha Hi Hs ja R U o sid p rest Em Hr Hc En Nc t1 hx qx t2 E Ea.
  pose proof (registered_few mods a F) as La.
  destruct (winput_given (registered mods a) _ _ _ _ ltac:(lia) ja R U true o sid p Hc En Nc t1 hx qx t2 E Ea) as (ox & nx & t3 & Et & (l1 & P1) & Q1). cbn [negb] in P1, Q1.
  exists ox, nx, t3. split; [exact Et|].
  intros b jb o' sid' p' Rb Ub Rl Hc' Nc' subs wasm users sched s hm An Us relay H1 H2 H3 H4 H5 H6 u1 h q u2 Eu.
  pose proof (registered_few mods b F) as Lb.
  destruct (C105_exporter_invoked mods m sb service room answers F H RC (or_intror eq_refl) a f calls i Ha Hi Hs ja R U o sid p rest true Em Hr Hc) as (_ & _ & I).
  destruct (I b jb o' sid' Rb Ub Rl) as (I1 & _). clear I.
  destruct (I1 (RC, h, q)) as (h' & head & S1 & S2 & S3).
  { rewrite Eu. unfold invocations. apply in_flat_map. exists (HInvoke RC sid' h q). split; [apply in_app_iff; right; now left|]. rewrite N.eqb_refl. now left. }
  injection S3 as -> ->. split; [exact S1|]. split; [reflexivity|]. split; [exists head; split; [exact S2|reflexivity]|].
  pose proof (ProcProps.C88_subscriber_sees _ _ subs wasm users sched s hm An Us H1 H2 H4) as V. fold relay in V. rewrite V, H3, H5 in H6.
  rewrite P1 in H6. rewrite relay_inputs in H6 by now apply ends_firstn.
  assert (Nb : forall x, ~ In (FCancel x) (on sid' (sd_out (at_side false jb)))) by exact Nc'.
  destruct (C107_guest_input_end_to_end (registered mods b) _ _ _ _ ltac:(lia) jb Rb Ub o' sid' p' Hc' ltac:(rewrite H6; now apply ends_firstn) Nb u1 h' _ u2 Eu) as (oy & n & u3 & Eu3 & (l2 & P2) & Q2).
  exists oy, n, u3. split; [exact Eu3|]. split.
  - rewrite H6, firstn_firstn in P2. eauto.
  - intros D1 D2. assert (G : got oy (trace_of true jb) = flat_map heard (feds o (trace_of true ja))) by (rewrite (Q2 D2), H6, <- P1; exact (Q1 D1)).
    split; [exact G|]. intros subs' wasm' users' sched' s' hm' An' Us' taken T1 T2 T3 T4.
    pose proof (ProcProps.C88_subscriber_sees _ _ subs' wasm' users' sched' s' hm' An' Us' T1 T2 T3) as V'. fold taken in V'. rewrite V', T4, G, emitted_effective by exact En. reflexivity.
Qed.

(** *** A run: a module calls a channel it imports, its input gives two values and
    completes; another module exports the channel, whose handler subscribes to its
    input. *)
Definition C110_mods : list (bytes * list reg_call) :=
  [([1], [CImport RC ([97], [120]); CImport RC ([97], [99])]);
   ([2], [CExport RC ([97], [98]) 30; CExport RR ([97], [101]) 11; CExport RC ([97], [100]) 32; CExport RC ([97], [99]) 31])].
Definition C110_mesh : mesh := match load_all (mesh_tables C110_mods) mesh_new with Ok m => m | _ => mesh_new end.
Definition C110_pay : pay := {| py_data := [5]; py_meta := [0; 0; 0; 1; 0; 0; 0; 0; 77] |}.
Definition C110_sent : pay := {| py_data := [5]; py_meta := [0; 0; 0; 2; 0; 0; 0; 0; 77] |}.
Definition x_do := w_do (registered C110_mods 1) (import_handlers C110_mesh 1).
Definition x_get := w_get (registered C110_mods 1) (import_handlers C110_mesh 1).
Definition m_do := w_do (registered C110_mods 0) (import_handlers C110_mesh 0).
Definition m_get := w_get (registered C110_mods 0) (import_handlers C110_mesh 0).
Definition C110_a1 := m_do false (XListen 0) (m_do false (XJob 0) (m_get false (m_do true (XRequest 0 5) (m_do true (XSubscribe 0) (m_do true (XCall RC C110_pay true) joint_init))))).
Definition C110_a := m_get false (m_get false (m_get false (m_do true (XIn 0 InComplete) (m_do true (XIn 0 (InNext (C94_val 42))) (m_do true (XIn 0 (InNext (C94_val 41))) C110_a1))))).
Definition C110_b1 := x_do true (XListen 0) (x_get true (x_do false (XRequest 0 5) (x_do false (XSubscribe 0) (x_do false (XCall RC C110_sent true) joint_init)))).
Definition C110_b2 := x_get true (x_do false (XIn 0 InComplete) (x_do false (XIn 0 (InNext (C94_val 42))) (x_do false (XIn 0 (InNext (C94_val 41))) C110_b1))).
Definition C110_b := x_get true (x_get true C110_b2).
Definition C110_users : list (list (FluxModel.fact pay bytes (ProcProps.pobs pay bytes) (FluxModel.fpcode pay bytes))) :=
  [[FluxModel.FObs ProcProps.OSub; FluxModel.FSubscribe relay_handlers]
    ++ C94_push (FluxModel.KNext (C94_val 41)) ++ C94_push (FluxModel.KNext (C94_val 42)) ++ C94_push FluxModel.KComplete].
Definition C110_relay := ProcProps.processor (fun _ => (None, None)) false C110_users (repeat 0%nat 40).
Definition C110_runs := instance_runs C110_mods C110_mesh (fun _ _ _ => true) (fun _ _ _ _ => False) (fun _ => C99_room) (fun _ _ _ _ => False).
Definition C110_before : list hevent := Eval vm_compute in firstn 1 (trace_of false C110_a).
Definition C110_after : list hevent := Eval vm_compute in skipn 2 (trace_of false C110_a).
Definition C110_u1 : list hevent := Eval vm_compute in firstn 1 (trace_of true C110_b).
Definition C110_u2 : list hevent := Eval vm_compute in skipn 2 (trace_of true C110_b).
Lemma C110_announces : ProcProps.announces (V := pay) (E := bytes) (fun _ => (None, None)).
Proof. intros id. split; intros f E; discriminate E. Qed.
Lemma C110_user : ProcProps.user (V := pay) (E := bytes) relay_handlers.
Proof. constructor; intros f X; first [discriminate X|injection X as <-]; intros; constructor. Qed.
Ltac usage_by := repeat (constructor; try exact C110_user; try discriminate).
Lemma C110_usage : Forall ProcProps.usage C110_users.
Proof. unfold C110_users, C94_push. cbn [app]. usage_by. Qed.
Lemma C110_loaded : Forall (fun x => len (snd x) < 2 ^ 32 - 1) C110_mods /\ load_all (mesh_tables C110_mods) mesh_new = Ok C110_mesh.
Proof. split; [repeat constructor|]. vm_compute; reflexivity. Qed.
Lemma C110_exported : exported_as RC C110_mods ([97], [99]).
Proof. intros x k h Hx He; cbn [C110_mods In] in Hx; repeat (destruct Hx as [<-|Hx]; [cbn [snd In] in He; repeat (destruct He as [He|He]; [try discriminate He; injection He; intros; subst; try discriminate; reflexivity|]); destruct He|]); destruct Hx. Qed.
Lemma C110_runs_a : C110_runs 0 C110_a.
Proof.
  change (w_runs (registered C110_mods 0) (import_handlers C110_mesh 0) (at_instance (fun _ _ _ _ => False) (fun _ _ _ _ => False) 0) C110_a).
  unfold C110_a, C110_a1, m_get, m_do. do 12 w_act. constructor.
Qed.
Lemma C110_runs_b : C110_runs 1 C110_b.
Proof.
  change (w_runs (registered C110_mods 1) (import_handlers C110_mesh 1) (at_instance (fun _ _ _ _ => False) (fun _ _ _ _ => False) 1) C110_b).
  unfold C110_b, C110_b2, C110_b1, x_get, x_do. do 11 w_act. constructor.
Qed.
Lemma C110_runs_b1 : C110_runs 1 C110_b1.
Proof.
  change (w_runs (registered C110_mods 1) (import_handlers C110_mesh 1) (at_instance (fun _ _ _ _ => False) (fun _ _ _ _ => False) 1) C110_b1).
  unfold C110_b1, x_get, x_do. do 5 w_act. constructor.
Qed.
Lemma C110_fits_b1 : fits C99_room C110_b1. Proof. w_fits C110_b1. Qed.
Example C110_example :
  Forall (fun x => len (snd x) < 2 ^ 32 - 1) C110_mods /\ load_all (mesh_tables C110_mods) mesh_new = Ok C110_mesh /\ exported_as RC C110_mods ([97], [99]) /\
  py_meta C110_pay = be 4 (import_after (registered C110_mods 0) RC ([97], [99])) ++ [0; 0; 0; 0; 77] /\
  C110_runs 0 C110_a /\ fits C99_room C110_a /\ C110_runs 1 C110_b /\ fits C99_room C110_b /\
  In (HCalled 0 RC 1 C110_pay true) (trace_of true C110_a) /\ ends_once (feds 0 (trace_of true C110_a)) /\ (forall x, ~ In (FCancel x) (on 1 (sd_out (at_side true C110_a)))) /\
  trace_of false C110_a = C110_before ++ HInvoke RC 1 1 C110_pay :: C110_after /\ flat_map carried (recvd 1 C110_before) = [] /\
  relayed_call C110_mesh RC 0 C110_a 1 1 C110_b 0 2 /\ In (HCalled 0 RC 2 C110_sent true) (trace_of false C110_b) /\ (forall x, ~ In (FCancel x) (on 2 (sd_out (at_side false C110_b)))) /\
  ProcProps.announces (V := pay) (E := bytes) (fun _ => (None, None)) /\ Forall ProcProps.usage C110_users /\ ~ In FluxModel.KCancel (FluxFacts.fcalls 0 (FluxModel.fc_trace C110_relay)) /\
  FluxModel.fc_stack C110_relay = [] /\ (exists hm, nth_error (FluxModel.fc_subs C110_relay) 0 = Some hm /\ FluxModel.fs_h hm = relay_handlers) /\
  ProcProps.to_sub 0 (ProcProps.routed 0 (FluxModel.fc_trace C110_relay)) = map as_call (got 0 (trace_of false C110_a)) /\
  feds 0 (trace_of false C110_b) = flat_map input_of (FluxFacts.delivered 0 (FluxModel.fc_trace C110_relay)) /\
  trace_of true C110_b = C110_u1 ++ HInvoke RC 2 31 C110_sent :: C110_u2 /\
  List.length (received (trace_of false C110_a)) = List.length (sd_out (at_side true C110_a)) /\ List.length (received (trace_of true C110_b)) = List.length (sd_out (at_side false C110_b)) /\
  feds 0 (trace_of true C110_a) = [InNext (C94_val 41); InNext (C94_val 42); InComplete] /\
  ProcProps.to_sub 0 (ProcProps.routed 0 (FluxModel.fc_trace C110_relay)) = map as_call (got 0 (trace_of true C110_b)) /\
  FluxFacts.delivered 0 (FluxModel.fc_trace C110_relay) = [FluxModel.ONext (C94_val 41); FluxModel.ONext (C94_val 42); FluxModel.OComplete] /\
  got 0 (trace_of true C110_b) = [SNext (C94_val 41); SNext (C94_val 42); SComplete] /\ got 0 (trace_of true C110_b2) = [SNext (C94_val 41)].
Proof.
  destruct C110_loaded as [L1 L2]. split; [exact L1|]. split; [exact L2|]. split; [exact C110_exported|]. split; [vm_compute; reflexivity|].
  split; [exact C110_runs_a|]. split; [w_fits C110_a|]. split; [exact C110_runs_b|]. split; [w_fits C110_b|].
  split; [vm_compute; tauto|]. split; [vm_compute; tauto|]. split; [intros x; vm_compute; intuition discriminate|]. split; [vm_compute; reflexivity|]. split; [vm_compute; reflexivity|].
  split. { exists 1, C110_pay, {| d_inst := 1; d_index := 2 |}, (py_meta C110_sent), true. split; [vm_compute; tauto|]. split; [vm_compute; reflexivity|]. split; [vm_compute; reflexivity|]. vm_compute; tauto. }
  split; [vm_compute; tauto|]. split; [intros x; vm_compute; intuition discriminate|]. split; [exact C110_announces|]. split; [exact C110_usage|].
  split; [vm_compute; intuition discriminate|]. split; [vm_compute; reflexivity|].
  split; [vm_compute; eexists; split; reflexivity|]. repeat match goal with |- _ /\ _ => split end; vm_compute; reflexivity.
Qed.
(** What reaches the caller's host before it ran the handler of the import is
    missing at the exporter, although nothing is left on the way. *)
Definition C110_early := m_do false (XJob 0) (m_get false (m_get false (m_do true (XIn 0 (InNext (C94_val 41))) (m_do true (XRequest 0 5) (m_do true (XSubscribe 0) (m_do true (XCall RC C110_pay true) joint_init)))))).
Definition C110_idle_users : list (list (FluxModel.fact pay bytes (ProcProps.pobs pay bytes) (FluxModel.fpcode pay bytes))) := [[FluxModel.FObs ProcProps.OSub; FluxModel.FSubscribe relay_handlers]].
Definition C110_idle := ProcProps.processor (fun _ => (None, None)) false C110_idle_users (repeat 0%nat 20).
Lemma C110_idle_usage : Forall ProcProps.usage C110_idle_users.
Proof. constructor; [|constructor]. apply ProcProps.u_sub; [exact C110_user|]. apply ProcProps.u_nil. Qed.
Lemma C110_runs_early : C110_runs 0 C110_early.
Proof.
  change (w_runs (registered C110_mods 0) (import_handlers C110_mesh 0) (at_instance (fun _ _ _ _ => False) (fun _ _ _ _ => False) 0) C110_early).
  unfold C110_early, m_get, m_do. do 7 w_act. constructor.
Qed.
Lemma C110_fits_early : fits C99_room C110_early. Proof. w_fits C110_early. Qed.
Theorem C110_early_input_lost_refuted :
  ~ (forall mods m sb service room answers, Forall (fun x => len (snd x) < 2 ^ 32 - 1) mods -> load_all (mesh_tables mods) mesh_new = Ok m ->
  forall a f calls i, nth_error mods a = Some (f, calls) -> In (CImport RC i) calls -> exported_as RC mods i ->
  forall ja, instance_runs mods m sb service room answers a ja -> fits (room a) ja ->
  forall o sid p rest, py_meta p = be 4 (import_after calls RC i) ++ rest -> 4 <= len rest -> In (HCalled o RC sid p true) (trace_of true ja) ->
  ends_once (feds o (trace_of true ja)) -> (forall x, ~ In (FCancel x) (on sid (sd_out (at_side true ja)))) ->
  forall t1 hx qx ox nx t3, trace_of false ja = t1 ++ HInvoke RC sid hx qx :: HDemand ox nx :: t3 ->
  forall b jb o' sid' p', instance_runs mods m sb service room answers b jb -> fits (room b) jb -> relayed_call m RC a ja sid b jb o' sid' ->
  In (HCalled o' RC sid' p' true) (trace_of false jb) -> (forall x, ~ In (FCancel x) (on sid' (sd_out (at_side false jb)))) ->
  forall subs wasm users sched s hm, ProcProps.announces subs -> Forall ProcProps.usage users ->
    let relay := ProcProps.processor subs wasm users sched in
    FluxModel.fc_stack relay = [] -> nth_error (FluxModel.fc_subs relay) s = Some hm -> FluxModel.fs_h hm = relay_handlers ->
    ~ In FluxModel.KCancel (FluxFacts.fcalls s (FluxModel.fc_trace relay)) ->
    ProcProps.to_sub s (ProcProps.routed 0 (FluxModel.fc_trace relay)) = map as_call (got ox (trace_of false ja)) ->
    feds o' (trace_of false jb) = flat_map input_of (FluxFacts.delivered s (FluxModel.fc_trace relay)) ->
  forall u1 h q oy n u3, trace_of true jb = u1 ++ HInvoke RC sid' h q :: HDemand oy n :: u3 ->
    List.length (received (trace_of false ja)) = List.length (sd_out (at_side true ja)) ->
    List.length (received (trace_of true jb)) = List.length (sd_out (at_side false jb)) ->
    got oy (trace_of true jb) = flat_map heard (feds o (trace_of true ja))).
Proof.
  intros H. destruct C110_loaded as [L1 L2].
  assert (E : trace_of false C110_early = firstn 3 (trace_of false C110_early) ++ HInvoke RC 1 1 C110_pay :: HDemand 0 5 :: []) by (vm_compute; reflexivity).
  assert (E2 : trace_of true C110_b1 = firstn 1 (trace_of true C110_b1) ++ HInvoke RC 2 31 C110_sent :: HDemand 0 5 :: []) by (vm_compute; reflexivity).
  assert (N : exists hm, nth_error (FluxModel.fc_subs C110_idle) 0 = Some hm /\ FluxModel.fs_h hm = relay_handlers) by (vm_compute; eexists; split; reflexivity). destruct N as (hm & N1 & N2).
  assert (Rl : relayed_call C110_mesh RC 0 C110_early 1 1 C110_b1 0 2).
  { exists 1, C110_pay, {| d_inst := 1; d_index := 2 |}, (py_meta C110_sent), true. split; [vm_compute; tauto|]. split; [vm_compute; reflexivity|]. split; [vm_compute; reflexivity|]. vm_compute; tauto. }
  specialize (H C110_mods C110_mesh (fun _ _ _ => true) (fun _ _ _ _ => False) (fun _ => C99_room) (fun _ _ _ _ => False) L1 L2 0%nat _ _ ([97], [99]) eq_refl ltac:(cbn; tauto) C110_exported
    C110_early C110_runs_early C110_fits_early 0 1 C110_pay [0; 0; 0; 0; 77] ltac:(vm_compute; reflexivity) ltac:(vm_compute; discriminate) ltac:(vm_compute; tauto) ltac:(vm_compute; tauto)
    ltac:(intros x; vm_compute; intuition discriminate) _ _ _ _ _ _ E 1%nat C110_b1 0 2 C110_sent C110_runs_b1 C110_fits_b1 Rl ltac:(vm_compute; tauto) ltac:(intros x; vm_compute; intuition discriminate)
    (fun _ => (None, None)) false C110_idle_users (repeat 0%nat 20) 0%nat hm C110_announces C110_idle_usage ltac:(vm_compute; reflexivity) N1 N2 ltac:(vm_compute; intuition discriminate) ltac:(vm_compute; reflexivity) ltac:(vm_compute; reflexivity)
    _ _ _ _ _ _ E2 ltac:(vm_compute; reflexivity) ltac:(vm_compute; reflexivity)).
  assert (X : got 0 (trace_of true C110_b1) = []) by (vm_compute; reflexivity).
  assert (X2 : flat_map heard (feds 0 (trace_of true C110_early)) = [SNext (C94_val 41)]) by (vm_compute; reflexivity). rewrite X, X2 in H. discriminate H.
Qed.
Print Assumptions C110_input_across.
Print Assumptions C110_early_input_lost_refuted.
