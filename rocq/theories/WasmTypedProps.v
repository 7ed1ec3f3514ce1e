(** C109: typed streams and channels between a host and a guest. *)
From Verif Require Import Base BaseFacts FramesModel WasmModel MsgpackModel MsgpackSpec MsgpackProofs MsgpackValues MsgpackProps RecordModel RecordProofs InvokeModel InvokeProofs InvokeProps TransformModel TransformProps
  TableModel TableProps LookupModel TcpModel HandlerModel HandlerFacts HandlerProps HandlerCallProps HandlerServeProps JointModel JointFacts JointProps StubModel StubProps StreamFacts StreamProps ChannelProps StreamStubModel
  StreamStubProps WasmEndModel WasmJointModel WasmJointFacts WasmJointProps WasmStreamProps WasmChannelProps MeshCallProps HostClientModel HostClientProps.
From Verif Require FluxModel FluxFacts FluxProps ProcProps.
Local Notation lim := 4294967296 (only parsing).

Lemma wcarried_stream :
  forall exported imported sb behaves room, len exported < 2 ^ 32 ->
  forall j, wruns exported imported sb behaves room j -> fits room j ->
  forall c o k sid p input, k = RS \/ k = RC -> In (HCalled o k sid p input) (trace_of c j) -> subscribed_first o (trace_of c j) ->
  List.length (received (trace_of c j)) = List.length (sd_out (at_side (negb c) j)) ->
  let written := on sid (sd_out (at_side (negb c) j)) in
  (k = RC -> forall x, ~ In (FCancel x) written) ->
  forall l, filter data_frame written = flat_map (stream_frame sid) (until_end l) -> got o (trace_of c j) = flat_map told (until_end l).
Proof.
  intros exported imported sb behaves room L j R U c o k sid p input Hk Hc Sf D written Nc l F.
  pose proof (wasm_inv exported imported sb behaves room L j R U) as J.
  assert (Nc' : forall x, ~ In (FCancel x) written).
  { intros x Hx. destruct k; try (destruct Hk; discriminate); [|exact (Nc eq_refl x Hx)]. unfold written, on in Hx. apply filter_In in Hx. destruct Hx as [X1 X2]. apply N.eqb_eq in X2.
    assert (Pf : N.odd (frame_stream (FCancel x)) = c) by (rewrite X2; exact (wcall_parity _ _ _ _ j c o _ _ _ _ J Hc)).
    destruct (won_peer_stream exported imported sb behaves L j c _ J X1 Pf) as [r R1 R2 M|k r text R1 R2 R3 M|r h q y R1 R2 R3 B M|k r h q R1 R2 K R3 M].
    - destruct (wstream_requests exported imported sb behaves j c o RS sid p input RC r J Hk Hc R1 ltac:(congruence)) as (_ & Z & _). discriminate.
    - discriminate.
    - destruct y; discriminate.
    - destruct M. }
  destruct (C100_in_order exported imported sb behaves room L j R U c o k sid p input Hk Hc Sf) as [_ Q].
  - fold written. apply closed_data; [exact Nc'|]. rewrite F. apply closed_frames.
  - rewrite (Q D). fold written. rewrite (carried_data _ Nc'), F. apply carried_frames.
Qed.
(** The operation of a client made by a host, if both name them in the same order. *)
Lemma host_selects : forall exported own k i later, len own < 2 ^ 32 - 1 -> same_order k (own ++ CImport k i :: later) exported ->
  exists n h, instance_import own k i = N.of_nat n /\ N.of_nat n < lim /\ nth_error (exports_of k exported) n = Some (i, h).
Proof.
  intros exported own k i later Lo (more & So). destruct (own_position own later k i Lo) as (n & E & Hn & Ln). exists n.
  assert (Y : nth_error (map fst (exports_of k exported)) n = Some i). { rewrite So, nth_error_app1; [exact Hn|]. apply nth_error_Some. congruence. }
  rewrite nth_error_map in Y. destruct (nth_error (exports_of k exported) n) as [[i' h]|] eqn:X; [|discriminate Y]. cbn in Y. injection Y as ->. exists h. split; [exact E|]. split; [exact Ln|reflexivity].
Qed.
Lemma stub_selected : forall exported imported k n i h data, k = RS \/ k = RC -> N.of_nat n < lim -> nth_error (exports_of k exported) n = Some (i, h) ->
  selected exported imported true k {| py_data := data; py_meta := stub_meta (N.of_nat n) |} = Some (h, {| py_data := data; py_meta := stub_meta (N.of_nat n) |}).
Proof.
  intros exported imported k n i h data Hk Ln X. unfold selected. cbn [py_meta py_data]. assert (M : len (stub_meta (N.of_nat n)) = 8) by (unfold stub_meta; rewrite len_app, len_be; reflexivity).
  rewrite M. cbn [N.ltb N.compare Pos.compare Pos.compare_cont].
  assert (Q : unbe (firstn 4 (stub_meta (N.of_nat n))) = N.of_nat n).
  { unfold stub_meta. rewrite firstn_app, be_length, Nat.sub_diag, firstn_O, app_nil_r, firstn_all2 by (rewrite be_length; lia). apply unbe_be_small. exact Ln. }
  rewrite Q, Nat2N.id, X. destruct Hk as [-> | ->]; reflexivity.
Qed.

(** ** C109 *)
(** A host that names the operations in the guest's order: a typed stream call
    invokes a service that the guest registered under the name of the call, with
    the record the client was called with, once at most; and it does when
    the caller has requested values and everything has arrived. *)
Theorem C109_service_invoked :
  forall R (table : list (rfield R)) zero exported imported sb behaves room, len exported < 2 ^ 32 ->
  forall own i later, len own < 2 ^ 32 - 1 -> same_order RS (own ++ CImport RS i :: later) exported ->
  exists h, In (CExport RS i h) exported /\
  forall j, wruns exported imported sb behaves room j -> fits room j ->
  forall r p, travels table zero r -> stub_pay table (instance_import own RS i) r = Ok p -> len (py_data p) < lim ->
  forall o sid input, In (HCalled o RS sid p input) (trace_of false j) ->
    let called := invocations sid (trace_of true j) in
    decodes table zero (py_data p) (Ok r) /\ (called = [] \/ called = [(RS, h, p)]) /\
    (asks o (trace_of false j) <> [] -> List.length (received (trace_of true j)) = List.length (sd_out (at_side false j)) -> ep_jobs (sd_ep (at_side true j)) = [] -> called = [(RS, h, p)]).
Proof.
  intros R table zero exported imported sb behaves room L own i later Lo So. destruct (host_selects exported own RS i later Lo So) as (n & h & E & Ln & X). exists h. split; [exact (export_in _ _ _ _ _ X)|].
  intros j Rn U r p Ht Hp Lp o sid input Hc called.
  destruct (C100_handler_invoked_once exported imported sb behaves room L j Rn U false o RS sid p input (or_introl eq_refl) Hc) as [A B]. cbn [negb] in A, B. fold called in A, B.
  unfold stub_pay in Hp. destruct (to_bytes (tab_encode table (Some r)) (tab_encode table (Some r))) as [d|e|] eqn:Ed; try discriminate. cbn [bind] in Hp. injection Hp as <-. cbn [py_data] in Lp.
  split; [eapply travels_decodes; eauto|]. rewrite E in *. rewrite (stub_selected exported imported RS n i h d (or_introl eq_refl) Ln X) in A, B. split.
  - destruct A as [A|(h' & S & A)]; [now left|right]. injection S as <-. exact A.
  - intros H1 H2 H3. exact (B H1 H2 H3 h _ eq_refl).
Qed.
(** As C96, in both directions: when all has arrived, the subscriber of the flux
    that the client's method returned has seen what it would have seen of
    the service's flux. *)
Theorem C109_typed_stream :
  forall A (tr : transform A) text exported imported sb behaves room, len exported < 2 ^ 32 ->
  forall j, wruns exported imported sb behaves room j -> fits room j ->
  forall c o k sid p input, k = RS \/ k = RC -> In (HCalled o k sid p input) (trace_of c j) -> subscribed_first o (trace_of c j) ->
  List.length (received (trace_of c j)) = List.length (sd_out (at_side (negb c) j)) ->
  let written := on sid (sd_out (at_side (negb c) j)) in
  (k = RC -> forall x, ~ In (FCancel x) written) ->
  forall C St wasm (source : nat -> list (FluxModel.fact A bytes frame C)) code (st : St) threads sched,
    (forall s, Forall FluxProps.silent (source s)) ->
    (forall k t st st' l, code k t st = Some (st', l) -> Forall FluxProps.silent l) ->
    Forall (Forall FluxProps.silent) threads ->
    let served := FluxModel.frun wasm source code (0 :: 0 :: sched)%nat (FluxModel.finit st ([FluxModel.FSubscribe (typed_emit tr text sid)] :: threads)) in
    FluxModel.fc_stack served = [] -> filter data_frame written = FluxProps.observed (FluxModel.fc_trace served) ->
    (forall a, In (FluxModel.KNext a) (pushed served) -> survives tr a) ->
  forall C' St' wasm' source' code' (st' : St') fn fc fe dr df nr threads' sched',
    FluxProps.quiet_world (C := C') source' code' (typed_in tr text) (Some fn) (Some fc) (Some fe) dr df -> Forall (Forall FluxProps.silent) threads' ->
    let called := FluxProps.mapped_run wasm' source' code' st' (typed_in tr text) (Some fn) (Some fc) (Some fe) dr df nr threads' sched' in
    FluxModel.fc_stack called = [] -> FluxFacts.fcalls 0 (FluxModel.fc_trace called) = map as_call (got o (trace_of c j)) ->
    seen called = flat_map shown (pushed served).
Proof.
  intros A tr text exported imported sb behaves room L j R U c o k sid p input Hk Hc Sf D written Nc C St wasm source code st threads sched A1 A2 A3 served Hs Hw Sv
    C' St' wasm' source' code' st' fn fc fe dr df nr threads' sched' W T called Hcs Hcc.
  pose proof (typed_frames A tr text C St wasm source code st threads sched sid A1 A2 A3 Hs) as F. fold served in F. rewrite <- Hw in F.
  assert (Un : map (call_map (typed_out tr text)) (pushed served) = until_end (map (call_map (typed_out tr text)) (pushed served))).
  { rewrite <- until_effective. symmetry. apply effective_map. intros v Hv. destruct (Sv v Hv) as (bs & E1 & _). exists {| py_data := bs; py_meta := [] |}. unfold typed_out. now rewrite E1. }
  rewrite Un in F. pose proof (wcarried_stream exported imported sb behaves room L j R U c o k sid p input Hk Hc Sf D Nc _ F) as G. rewrite <- Un in G.
  pose proof (mapped_seen pay A C' St' wasm' source' code' st' (typed_in tr text) fn fc fe dr df nr threads' sched' W T Hcs) as M. fold called in M. rewrite M. unfold pushed at 1. rewrite Hcc, G.
  unfold pushed. now apply told_back.
Qed.
(** The typed input of a host's channel call: if the call is not cancelled and all has
    arrived, the guest's service has seen what it would have seen of the
    caller's input, whether or not that waits to be asked (C97 needs that it does). *)
Theorem C109_typed_input :
  forall A (tr : transform A) text exported imported sb behaves room, len exported < 2 ^ 32 ->
  forall j, wruns exported imported sb behaves room j -> fits room j ->
  forall o sid p, In (HCalled o RC sid p true) (trace_of false j) -> (forall x, ~ In (FCancel x) (on sid (sd_out (at_side false j)))) ->
  forall C St wasm source code (st : St) fn fc fe dr df nr threads sched,
    FluxProps.quiet_world (C := C) source code (typed_out tr text) (Some fn) (Some fc) (Some fe) dr df -> Forall (Forall FluxProps.silent) threads ->
    let given := FluxProps.mapped_run wasm source code st (typed_out tr text) (Some fn) (Some fc) (Some fe) dr df nr threads sched in
    FluxModel.fc_stack given = [] -> feds o (trace_of false j) = flat_map input_of (FluxProps.observed (FluxModel.fc_trace given)) ->
    (forall a, In (FluxModel.KNext a) (pushed given) -> survives tr a) ->
  forall t1 h q t2, trace_of true j = t1 ++ HInvoke RC sid h q :: t2 -> List.length (received (trace_of true j)) = List.length (sd_out (at_side false j)) ->
  exists o' n t3, t2 = HDemand o' n :: t3 /\
  forall C' St' wasm' source' code' (st' : St') fn' fc' fe' dr' df' nr' threads' sched',
    FluxProps.quiet_world (C := C') source' code' (typed_in tr text) (Some fn') (Some fc') (Some fe') dr' df' -> Forall (Forall FluxProps.silent) threads' ->
    let taken := FluxProps.mapped_run wasm' source' code' st' (typed_in tr text) (Some fn') (Some fc') (Some fe') dr' df' nr' threads' sched' in
    FluxModel.fc_stack taken = [] -> FluxFacts.fcalls 0 (FluxModel.fc_trace taken) = map as_call (got o' (trace_of true j)) ->
    seen taken = flat_map shown (pushed given).
Proof.
  intros A tr text exported imported sb behaves room L j R U o sid p Hc Nc C St wasm source code st fn fc fe dr df nr threads sched W T given Hg Hf Sv t1 h q t2 E D.
  pose proof (mapped_seen A pay C St wasm source code st (typed_out tr text) fn fc fe dr df nr threads sched W T Hg) as M. fold given in M. rewrite input_seen, M in Hf.
  assert (Ef : map (call_map (typed_out tr text)) (pushed given) = FluxFacts.effective (map (call_map (typed_out tr text)) (pushed given))).
  { symmetry. apply effective_map. intros v Hv. destruct (Sv v Hv) as (bs & E1 & _). exists {| py_data := bs; py_meta := [] |}. unfold typed_out. now rewrite E1. }
  assert (En : ends_once (feds o (trace_of false j))) by (rewrite Hf, Ef; apply input_ends).
  destruct (C107_guest_input_end_to_end exported imported sb behaves room L j R U o sid p Hc En Nc t1 h q t2 E) as (o' & n & t3 & E3 & _ & G). specialize (G D). rewrite Hf, input_heard in G.
  exists o', n, t3. split; [exact E3|].
  intros C' St' wasm' source' code' st' fn' fc' fe' dr' df' nr' threads' sched' W' T' taken Ht Hk.
  pose proof (mapped_seen pay A C' St' wasm' source' code' st' (typed_in tr text) fn' fc' fe' dr' df' nr' threads' sched' W' T' Ht) as M'. fold taken in M'. rewrite M'. unfold pushed at 1. rewrite Hk, G.
  unfold pushed. now apply told_back.
Qed.
(** The counter of the example: for every number there is a payload, and when the
    host's client has requested values and all has arrived, the guest's service has been
    invoked with that number. *)
Theorem C109_counter :
  forall exported imported sb behaves room, len exported < 2 ^ 32 ->
  forall own later, len own < 2 ^ 32 - 1 -> same_order RS (own ++ CImport RS count_to :: later) exported ->
  forall x, x < 2 ^ 64 ->
  exists p h, stub_pay counter_table (instance_import own RS count_to) x = Ok p /\ In (CExport RS count_to h) exported /\
  forall j, wruns exported imported sb behaves room j -> fits room j ->
  forall o sid input, In (HCalled o RS sid p input) (trace_of false j) -> asks o (trace_of false j) <> [] ->
    List.length (received (trace_of true j)) = List.length (sd_out (at_side false j)) -> ep_jobs (sd_ep (at_side true j)) = [] ->
    exists q, invocations sid (trace_of true j) = [(RS, h, q)] /\ decodes counter_table 0 (py_data q) (Ok x).
Proof.
  intros exported imported sb behaves room L own later Lo So x Hx. assert (Fx : fits_u 8 x) by exact Hx.
  pose proof (counter_travels x 0 Fx) as T. assert (S : len (on_wire counter_table x) < lim).
  { unfold on_wire. cbn [counter_table map concat a_field f_name f_put]. rewrite app_nil_r, !len_app. pose proof (uint_cost x) as Z.
    replace (len (mp_map (len counter_table))) with 1 by reflexivity. replace (len (mp_str_len (len name_to))) with 1 by reflexivity. replace (len name_to) with 2 by reflexivity. unfold bytes in *. lia. }
  assert (W : writable counter_table x) by (split; [repeat constructor; exact Fx|]; now rewrite calls_on_wire).
  pose proof (encode_table _ counter_table x W) as E.
  destruct (C109_service_invoked N counter_table 0 exported imported sb behaves room L own count_to later Lo So) as (h & Hh & H).
  exists {| py_data := on_wire counter_table x; py_meta := stub_meta (instance_import own RS count_to) |}, h.
  assert (Hp : stub_pay counter_table (instance_import own RS count_to) x = Ok {| py_data := on_wire counter_table x; py_meta := stub_meta (instance_import own RS count_to) |}) by (unfold stub_pay; now rewrite E).
  split; [exact Hp|]. split; [exact Hh|]. intros j R U o sid input Hc H1 H2 H3.
  destruct (H j R U x _ T Hp S o sid input Hc) as (Q1 & _ & Q2). eexists. split; [exact (Q2 H1 H2 H3)|exact Q1].
Qed.
(** *** A run: the guest exports a stream and a channel as [count_to]; the host counts
    to 2 and opens the channel with an input that does not wait. *)
Definition C109_exports : list reg_call := [CExport RC count_to 7; CExport RS ([97], [98]) 4; CExport RS count_to 5].
Definition C109_own : list reg_call := [CImport RS ([97], [98]); CImport RC count_to].
Definition C109_behaves (c : bool) (h : N) (p : pay) (r : pay + bytes) : Prop := False.
Definition C109_do := w_do C109_exports (fun _ _ => None).
Definition C109_get := w_get C109_exports (fun _ _ => None).
Definition C109_runs := w_runs C109_exports (fun _ _ => None) C109_behaves.
Definition C109_1 := C109_do false (XRequest 0 5) (C109_do false (XSubscribe 0) (C109_do false (XCall RS C96_pay false) joint_init)).
Definition C109_2 := C109_do false (XRequest 1 3) (C109_do false (XSubscribe 1) (C109_do false (XCall RC (channel_pay 0) true) C109_1)).
Definition C109_3 := C109_do false (XIn 1 InComplete) (C109_do false (XIn 1 (InNext (C96_val 98))) (C109_do false (XIn 1 (InNext (C96_val 97))) C109_2)).
Definition C109_4 := C109_do true (XListen 1) (C109_get true (C109_get true C109_3)).
Definition C109_5 := C100_put true (in_frame 2 InComplete) (C100_put true (in_frame 2 (InNext (C96_val 50))) (C100_put true (in_frame 2 (InNext (C96_val 49))) C109_4)).
Definition C109_6 := C109_get true (C109_get true (C109_get true C109_5)).
Definition C109_7 := C109_get false (C109_get false (C109_get false C109_6)).
Lemma C109_emit : forall f j, In (HInvoke RS (frame_stream f) 5 C96_pay) (trace_of true j) -> match f with FPayload _ | FError _ => True | _ => False end ->
  w_runs C109_exports (fun _ _ => None) C109_behaves j -> w_runs C109_exports (fun _ _ => None) C109_behaves (C100_put true f j).
Proof. intros f j H1 H2 R. eapply wr_step; [exact R|]. unfold C100_put. eapply WEmit; eauto. Qed.
Lemma C109_run : C109_runs C109_7.
Proof.
  unfold C109_runs, C109_7, C109_6, C109_5, C109_4, C109_3, C109_2, C109_1, C109_do, C109_get. do 6 w_act.
  do 3 (apply C109_emit; [vm_compute; tauto|exact I|]). do 12 w_act. constructor.
Qed.
Definition C109_served : FluxModel.fconf bytes bytes frame Empty_set unit :=
  FluxModel.frun true (fun s => [FluxModel.FCall s (FluxModel.KNext [49]); FluxModel.FCall s (FluxModel.KNext [50]); FluxModel.FCall s FluxModel.KComplete; FluxModel.FCall s (FluxModel.KNext [51])])
    (fun _ _ _ => None) (0 :: 0 :: repeat 0%nat 30)%nat (FluxModel.finit tt [[FluxModel.FSubscribe (typed_emit tr_string C96_text 2)]]).
Definition C109_before : list hevent := Eval vm_compute in firstn 4 (trace_of true C109_7).
Definition C109_since : list hevent := Eval vm_compute in skipn 5 (trace_of true C109_7).
Example C109_example :
  C109_runs C109_7 /\ fits C99_room C109_7 /\ same_order RS (C109_own ++ CImport RS count_to :: []) C109_exports /\
  stub_pay counter_table (instance_import C109_own RS count_to) 2 = Ok C96_pay /\
  In (HCalled 0 RS 2 C96_pay false) (trace_of false C109_7) /\ subscribed_first 0 (trace_of false C109_7) /\ asks 0 (trace_of false C109_7) = [5%Z] /\
  List.length (received (trace_of true C109_7)) = List.length (sd_out (at_side false C109_7)) /\ List.length (received (trace_of false C109_7)) = List.length (sd_out (at_side true C109_7)) /\
  ep_jobs (sd_ep (at_side true C109_7)) = [] /\ invocations 2 (trace_of true C109_7) = [(RS, 5, C96_pay)] /\
  FluxModel.fc_stack C109_served = [] /\ filter data_frame (on 2 (sd_out (at_side true C109_7))) = FluxProps.observed (FluxModel.fc_trace C109_served) /\
  (let called := C96_taken (map as_call (got 0 (trace_of false C109_7))) in
   FluxModel.fc_stack called = [] /\ FluxFacts.fcalls 0 (FluxModel.fc_trace called) = map as_call (got 0 (trace_of false C109_7)) /\
   seen called = [FluxModel.ONext [49]; FluxModel.ONext [50]; FluxModel.OComplete]) /\
  In (HCalled 1 RC 4 (channel_pay 0) true) (trace_of false C109_7) /\ (forall x, ~ In (FCancel x) (on 4 (sd_out (at_side false C109_7)))) /\
  trace_of true C109_7 = C109_before ++ HInvoke RC 4 7 (channel_pay 0) :: C109_since /\ hd_error C109_since = Some (HDemand 1 3) /\
  FluxModel.fc_stack C97_given = [] /\ feds 1 (trace_of false C109_7) = flat_map input_of (FluxProps.observed (FluxModel.fc_trace C97_given)) /\
  (let taken := C96_taken (map as_call (got 1 (trace_of true C109_7))) in
   FluxModel.fc_stack taken = [] /\ FluxFacts.fcalls 0 (FluxModel.fc_trace taken) = map as_call (got 1 (trace_of true C109_7)) /\
   seen taken = [FluxModel.ONext [97]; FluxModel.ONext [98]; FluxModel.OComplete]).
Proof.
  split; [exact C109_run|]. split; [w_fits C109_7|]. split; [exists []; reflexivity|]. split; [vm_compute; reflexivity|]. split; [vm_compute; tauto|]. split.
  { intros t1 n t2 E. assert (Z : trace_of false C109_7 = ltac:(let t := eval vm_compute in (trace_of false C109_7) in exact t)) by (vm_compute; reflexivity). rewrite Z in E. clear Z.
    repeat (destruct t1 as [|x t1]; [discriminate E || (cbn; tauto)|]; injection E as <- E; cbn [In]); try (destruct t1; discriminate E); cbn; tauto. }
  repeat match goal with |- _ /\ _ => split end; try (vm_compute; reflexivity).
  - vm_compute. repeat split; reflexivity.
  - vm_compute. tauto.
  - intros x. vm_compute. intuition discriminate.
  - vm_compute. repeat split; reflexivity.
Qed.
Print Assumptions C109_service_invoked.
Print Assumptions C109_typed_stream.
Print Assumptions C109_typed_input.
Print Assumptions C109_counter.
