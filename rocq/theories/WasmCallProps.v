(** C98: the calls made by a host or a guest. *)
From Verif Require Import Base BaseFacts FramesModel WasmModel InvokeModel LookupModel HandlerModel HandlerFacts HandlerProps HandlerCallProps HandlerServeProps
  HandlerCrashProps JointModel JointFacts JointProps StreamFacts WasmEndModel WasmEndFacts WasmEndProps WasmCallFacts.
From Verif Require MonoModel MonoFacts MonoProps.

(** Every execution of one of the two WebAssembly ends: of a guest with any
    exports, of a host with any imports, which may change between steps. *)
Definition wasm_history (guest : bool) (e : ep) : Prop :=
  if guest then exists reg sb l, guest_history reg sb l e else exists sb l, host_history sb l e.
Lemma wasm_calls_ok : forall guest e, wasm_history guest e -> calls_ok guest e /\ good guest e.
Proof. intros [] e H; [destruct H as (reg & sb & l & H); exact (guest_calls_ok _ _ _ _ H)|destruct H as (sb & l & H); exact (host_calls_ok _ _ _ H)]. Qed.
Lemma calls_mono : forall guest e o sid p input, calls_ok guest e -> In (HCalled o RR sid p input) (ep_trace e) -> exists R, mono_at o (call_request RR sid p) (ep_trace e) R.
Proof.
  intros guest e o sid p input [[[M _] _] _] Hc.
  destruct (fo_called guest e (mo_flux guest e M) o RR sid p input Hc) as (x & X1 & X2). destruct x as [r|s|]; cbn in X2; [|destruct X2 as [[X2|X2] _]; discriminate|destruct X2].
  destruct X2 as [_ ->]. eexists. exact (mo_obj guest e M o _ X1).
Qed.
Lemma calls_flux : forall guest e o k sid p input, calls_ok guest e -> k = RS \/ k = RC -> In (HCalled o k sid p input) (ep_trace e) ->
  exists s, ep_obj o e = Some (OFlux s) /\ set_initial (sf_req s) 0 = set_initial (call_request k sid p) 0 /\ sf_in s = input /\ rq_stream (sf_req s) = sid.
Proof.
  intros guest e o k sid p input [[[M _] _] _] K Hc.
  destruct (fo_called guest e (mo_flux guest e M) o k sid p input Hc) as (x & X1 & X2). destruct x as [r|s|]; cbn in X2; [destruct X2 as [-> _]; now destruct K| |destruct X2].
  destruct X2 as (_ & X2 & X3). exists s. repeat split; auto. exact (f_equal rq_stream X2).
Qed.

(** Request-response: one request frame per subscription; only answers from the
    own stream are delivered; the first one is. *)
Theorem C98_one_request_per_subscription :
  forall guest e o sid p input, wasm_history guest e -> In (HCalled o RR sid p input) (ep_trace e) ->
    sent demand_frame sid (ep_trace e) = repeat (asking sid p) (subs o (ep_trace e)).
Proof. intros guest e o sid p input H Hc. destruct (calls_mono guest e o sid p input (proj1 (wasm_calls_ok guest e H)) Hc) as (R & M). exact (m_sent _ _ _ _ M). Qed.
Theorem C98_only_answers_on_own_stream :
  forall guest e o sid p input, wasm_history guest e -> In (HCalled o RR sid p input) (ep_trace e) ->
    subseq (got o (ep_trace e)) (answers (recvd sid (ep_trace e))).
Proof. intros guest e o sid p input H Hc. destruct (calls_mono guest e o sid p input (proj1 (wasm_calls_ok guest e H)) Hc) as (R & M). exact (m_sub _ _ _ _ M). Qed.
Theorem C98_first_answer_delivered :
  forall guest e o sid p input, wasm_history guest e -> In (HCalled o RR sid p input) (ep_trace e) -> prompt (recvd sid (after o (ep_trace e))) ->
    hd_error (got o (ep_trace e)) = hd_error (answers (recvd sid (after o (ep_trace e)))).
Proof.
  intros guest e o sid p input H Hc Hp. destruct (calls_mono guest e o sid p input (proj1 (wasm_calls_ok guest e H)) Hc) as (R & M). apply (m_first _ _ _ _ M). exact Hp.
Qed.
Theorem C98_subscriber_sees_first_answer :
  forall guest e o sid p input, wasm_history guest e -> In (HCalled o RR sid p input) (ep_trace e) -> prompt (recvd sid (after o (ep_trace e))) ->
    forall Q (h : MonoModel.handlers pay bytes Q (MonoModel.pcode pay bytes)) sched,
    let c := MonoModel.mrun MonoModel.proc_source MonoModel.proc_code sched
      (MonoModel.minit MonoModel.pstore0 [MonoModel.ASubscribe h :: MonoProps.results (flat_map result_of (got o (ep_trace e)))]) in
    MonoModel.mc_stack c = [] -> MonoModel.mc_threads c = [] ->
    MonoFacts.outcomes 0 (MonoModel.mc_trace c) =
      match answers (recvd sid (after o (ep_trace e))) with
      | SNext v :: _ => MonoProps.seen h (inl v)
      | SError x :: _ => MonoProps.seen h (inr x)
      | _ => []
      end.
Proof.
  intros guest e o sid p input H Hc Hp Q h sched c Hk Ht.
  pose proof (MonoProps.C50_processor_delivers_decided pay bytes Q h [] (flat_map result_of (got o (ep_trace e))) sched Hk Ht) as X.
  cbn [MonoProps.results map app] in X. unfold c. etransitivity; [exact X|]. clear X. unfold MonoProps.decided. cbn [MonoProps.last_left MonoProps.last_right].
  pose proof (C98_first_answer_delivered guest e o sid p input H Hc Hp) as F.
  pose proof (C98_only_answers_on_own_stream guest e o sid p input H Hc) as S.
  pose proof (no_completes _ _ S) as N. rewrite F in N.
  destruct (answers (recvd sid (after o (ep_trace e)))) as [|k ks]; cbn [hd_error] in N.
  - destruct (flat_map result_of (got o (ep_trace e))); [reflexivity|discriminate].
  - destruct k; cbn in N; destruct (flat_map result_of (got o (ep_trace e))); try discriminate; try (injection N as ->); reflexivity.
Qed.
(** Streams and channels: the demand of the subscriber and the input are on the
    wire as in C59, and what arrives on the stream is delivered, once and in
    order. *)
Theorem C98_demand_on_the_wire :
  forall guest e o k sid p input, wasm_history guest e -> k = RS \/ k = RC -> In (HCalled o k sid p input) (ep_trace e) ->
    sent demand_frame sid (ep_trace e) = announce (call_request k sid p) (asks o (ep_trace e)).
Proof.
  intros guest e o k sid p input H K Hc. destruct (wasm_calls_ok guest e H) as [C G]. destruct (calls_flux guest e o k sid p input C K Hc) as (s & X1 & X2 & _ & Es).
  destruct C as [[[M _] _] _]. destruct (fo_obj guest e (mo_flux _ _ M) o s X1) as (_ & _ & X3 & _).
  rewrite Es in X3. rewrite X3. rewrite <- (announce_set (sf_req s) 0), X2. apply announce_set.
Qed.
Theorem C98_input_on_the_wire :
  forall guest e o k sid p input, wasm_history guest e -> k = RS \/ k = RC -> In (HCalled o k sid p input) (ep_trace e) ->
    sent input_frame sid (ep_trace e) = (if input then map (in_frame sid) (feds o (ep_trace e)) else []) /\
    forall t1 f t2, ep_trace e = t1 ++ HSent f :: t2 -> input_frame f = true -> frame_stream f = sid -> sent demand_frame sid t1 <> [].
Proof.
  intros guest e o k sid p input H K Hc. destruct (wasm_calls_ok guest e H) as [C G]. destruct (calls_flux guest e o k sid p input C K Hc) as (s & X1 & X2 & X3 & Es).
  destruct C as [[[M _] _] _]. destruct (fo_obj guest e (mo_flux _ _ M) o s X1) as (_ & _ & _ & X4). rewrite Es, X3 in X4. split; [exact X4|].
  intros t1 f t2 Et Hf Hs. assert (Ho : N.odd (frame_stream f) = guest) by (rewrite Hs, <- Es; eapply flux_stream_local; eauto).
  pose proof (fo_order guest e (mo_flux _ _ M) t1 f t2 Et Hf Ho) as W. rewrite Hs in W. exact W.
Qed.
Theorem C98_stream_delivered :
  forall guest e o k sid p input, wasm_history guest e -> k = RS \/ k = RC -> In (HCalled o k sid p input) (ep_trace e) ->
    subseq (got o (ep_trace e)) (flat_map carried (recvd sid (ep_trace e))) /\
    (closed_last (recvd sid (after o (ep_trace e))) -> got o (ep_trace e) = flat_map carried (recvd sid (after o (ep_trace e)))).
Proof.
  intros guest e o k sid p input H K Hc. destruct (wasm_calls_ok guest e H) as [C G]. destruct (calls_flux guest e o k sid p input C K Hc) as (s & X1 & _ & _ & Es).
  destruct C as [[_ S] _]. destruct (S o s X1) as [_ B C]. rewrite Es in B, C. rewrite !carried_all. auto.
Qed.

(** A host makes a call and opens a channel while it serves a call of the guest
    with one import, a stream with another, and ignores a Setup frame and a
    fragment. *)
Definition C98_imports (n : N) (k : kind) (i : N) : option N := match k with RR | RS => if i =? 0 then Some n else None | _ => None end.
Definition C98_ops : list (hop * (kind -> N -> option N)) :=
  map (fun x => (x, C98_imports 21)) [XCall RR pay1 false; XSubscribe 0; XFrame (req 4 1 [0; 0; 0; 0; 0; 0; 0; 0; 77] [5] 1); XJob 0; XCall RC pay1 true; XSubscribe 1; XRequest 1 4;
    XFrame (freq 4 5 [0; 0; 0; 0; 0; 0; 0; 0] [6])] ++
  map (fun x => (x, C98_imports 22)) [XIn 1 (InNext {| py_data := [8]; py_meta := [] |}); XFrame (req 6 3 [0; 0; 0; 0; 0; 0; 0; 0] [5] 2); XFrame (item 2 [3] true true); XJob 0;
    XFrame (item 4 [6] true false); XFrame (item 4 [7] true true)].
Definition C98_end : ep := match host_run (fun _ => true) C98_ops ep_init with Ok e => e | _ => ep_init end.
Example C98_example :
  wasm_history false C98_end /\
  In (HCalled 0 RR 2 pay1 false) (ep_trace C98_end) /\ prompt (recvd 2 (after 0 (ep_trace C98_end))) /\
  sent demand_frame 2 (ep_trace C98_end) = [asking 2 pay1] /\ got 0 (ep_trace C98_end) = [SNext {| py_data := [3]; py_meta := [] |}] /\
  In (HCalled 1 RC 4 pay1 true) (ep_trace C98_end) /\ closed_last (recvd 4 (after 1 (ep_trace C98_end))) /\
  got 1 (ep_trace C98_end) = [SNext {| py_data := [6]; py_meta := [] |}; SNext {| py_data := [7]; py_meta := [] |}; SComplete] /\
  List.length (sent demand_frame 4 (ep_trace C98_end)) = 1%nat /\ List.length (sent input_frame 4 (ep_trace C98_end)) = 1%nat.
Proof.
  split; [exists (fun _ => true), C98_ops; split; [vm_compute; reflexivity|split; [vm_compute; reflexivity|repeat constructor]]|].
  split; [vm_compute; tauto|]. split; [exact I|]. split; [vm_compute; reflexivity|]. split; [vm_compute; reflexivity|]. split; [vm_compute; tauto|].
  split; [|vm_compute; auto]. assert (E : recvd 4 (after 1 (ep_trace C98_end)) = [item 4 [6] true false; item 4 [7] true true]) by (vm_compute; reflexivity). rewrite E.
  cbn. repeat split. discriminate.
Qed.
Print Assumptions C98_one_request_per_subscription.
Print Assumptions C98_only_answers_on_own_stream.
Print Assumptions C98_first_answer_delivered.
Print Assumptions C98_subscriber_sees_first_answer.
Print Assumptions C98_demand_on_the_wire.
Print Assumptions C98_input_on_the_wire.
Print Assumptions C98_stream_delivered.
