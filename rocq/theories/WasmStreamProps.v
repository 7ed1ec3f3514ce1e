(** C100: stream and channel calls between a host and a guest. *)
From Verif Require Import Base BaseFacts FramesModel FramesProofs FramesProps WasmModel WasmProofs WasmProps TcpModel TcpProofs TcpProps InvokeModel InvokeProofs LookupModel
  HandlerModel HandlerFacts HandlerProps HandlerCallProps HandlerServeProps HandlerCrashProps JointModel JointFacts JointProps StreamFacts StreamProps
  WasmEndModel WasmEndFacts WasmEndProps WasmCallFacts WasmCallProps WasmJointModel WasmJointFacts WasmJointProps.
From Verif Require MonoModel MonoFacts FluxModel FluxFacts FluxProps ProcProps.
From Coq Require Import Permutation.

Section C100.
Variable exported : list reg_call.
Variable imported : kind -> N -> option N.
Variable subscribable : bool -> N -> bool.
Variable behaves : bool -> N -> pay -> pay + bytes -> Prop.
Variable room : bool -> N.
Hypothesis few : len exported < 2 ^ 32.
Let ok := wasm_ok exported imported subscribable behaves.
Let runs := wruns exported imported subscribable behaves room.
(** *** Frames on the stream of a call *)
Lemma same_stream : forall j c f g, ok j -> In f (sd_out (at_side c j)) -> frame_received f g -> (frame_stream f =? frame_stream g) = true.
Proof.
  intros j c f g J Hf Hr. destruct (received_stream f g Hr) as [->|(s & ->)]; [apply N.eqb_refl|exfalso]. exact (not_setup _ _ _ _ j c _ J Hf s eq_refl).
Qed.
Lemma wrecvd_on : forall j c sid, ok j -> exists n, Forall2 frame_received (firstn n (on sid (sd_out (at_side (negb c) j)))) (recvd sid (trace_of c j)).
Proof.
  intros j c sid J. destruct (wo_recv _ _ _ _ j J c) as (n & Hn). unfold on. destruct (filter_firstn _ (fun f => frame_stream f =? sid) n (sd_out (at_side (negb c) j))) as (m & Hm).
  exists m. rewrite <- Hm, recvd_received. apply Forall2_filter; [exact Hn|]. intros f g Hf Hr. apply firstn_in in Hf.
  apply same_stream with (j := j) (c := negb c) in Hr; auto. apply N.eqb_eq in Hr. now rewrite Hr.
Qed.
Lemma wrecvd_all : forall j c sid, ok j -> List.length (received (trace_of c j)) = List.length (sd_out (at_side (negb c) j)) ->
  Forall2 frame_received (on sid (sd_out (at_side (negb c) j))) (recvd sid (trace_of c j)).
Proof.
  intros j c sid J E. pose proof (wall_delivered exported imported subscribable behaves room few j c J E) as F. rewrite recvd_received. apply Forall2_filter; [exact F|]. intros f g Hf Hr.
  apply same_stream with (j := j) (c := negb c) in Hr; auto. apply N.eqb_eq in Hr. now rewrite Hr.
Qed.
(** Requests handled by the peer on the stream of a call are that call's request. *)
Lemma wstream_requests : forall j c o k sid p b k' r, ok j -> k = RS \/ k = RC -> In (HCalled o k sid p b) (trace_of c j) ->
  In (k', r) (requests (trace_of (negb c) j)) -> rq_stream r = sid ->
  asks o (trace_of c j) <> [] /\ k' = k /\ rq_metadata r = py_meta p /\ rq_data r = py_data p.
Proof.
  intros j c o k sid p b k' r J Hk Hc Hr Es. destruct (wrequest_was_sent exported imported subscribable behaves j c k' r J Hr) as (Kd & q & Q1 & Q2).
  pose proof (C98_demand_on_the_wire c _ _ _ _ _ _ (whistory _ _ _ _ j c J) Hk Hc) as S. destruct Q2 as (T & St & M & D & _).
  pose proof (demand_sent sid q _ Q1 (eq_trans (eq_sym St) Es)) as I. unfold trace_of in *. rewrite S in I.
  destruct (asks o (ep_trace (sd_ep (at_side c j)))) as [|n ns]; [destruct I|]. split; [discriminate|]. cbn [announce] in I. destruct I as [I|I].
  - injection I as <-. cbn in T, M, D. rewrite T in Kd. destruct Hk as [-> | ->]; cbn in Kd; injection Kd as <-; auto.
  - apply in_map_iff in I. destruct I as (x & X & _). discriminate.
Qed.
Lemma wunasked_quiet : forall j c o k sid p b, ok j -> k = RS \/ k = RC -> In (HCalled o k sid p b) (trace_of c j) -> asks o (trace_of c j) = [] ->
  on sid (sd_out (at_side (negb c) j)) = [].
Proof.
  intros j c o k sid p b J Hk Hc Hs. destruct (on sid (sd_out (at_side (negb c) j))) as [|f fs] eqn:E; [reflexivity|]. exfalso.
  assert (Hf : In f (on sid (sd_out (at_side (negb c) j)))) by (rewrite E; now left). unfold on in Hf. apply filter_In in Hf. destruct Hf as [F1 F2]. apply N.eqb_eq in F2.
  assert (Pf : N.odd (frame_stream f) = c) by (rewrite F2; exact (wcall_parity _ _ _ _ j c o _ _ _ _ J Hc)).
  destruct (wpeer_request _ _ _ _ (won_peer_stream exported imported subscribable behaves few j c f J F1 Pf)) as (k' & r & R1 & R2).
  destruct (wstream_requests j c o k sid p b k' r J Hk Hc R1 ltac:(congruence)) as (Z & _). contradiction.
Qed.
Lemma wunasked_recvd : forall j c o k sid p b, ok j -> k = RS \/ k = RC -> In (HCalled o k sid p b) (trace_of c j) -> asks o (trace_of c j) = [] -> recvd sid (trace_of c j) = [].
Proof.
  intros j c o k sid p b J Hk Hc Hs. destruct (wrecvd_on j c sid J) as (n & H). rewrite (wunasked_quiet j c o k sid p b J Hk Hc Hs), firstn_nil in H. now inversion H.
Qed.
Lemma wstream_causal : forall j, runs j -> fits room j -> forall c o k sid p b, k = RS \/ k = RC -> In (HCalled o k sid p b) (trace_of c j) ->
  subscribed_first o (trace_of c j) -> recvd sid (after o (trace_of c j)) = recvd sid (trace_of c j).
Proof.
  intros j H. induction H as [|j j' H IH St]; intros U c o k sid p b Hk Hc Sf; [destruct c; destruct Hc|].
  pose proof (fits_before exported imported subscribable behaves room few j j' St U) as U0.
  pose proof (wasm_inv exported imported subscribable behaves room few j H U0) as J.
  destruct (wasm_step exported imported subscribable behaves room few j j' J St U) as [J' Tr].
  destruct (subscribed o (trace_of c j')) eqn:S'.
  2:{ rewrite (wunasked_recvd j' c o k sid p b J' Hk Hc (asked_when _ _ Sf S')), (after_none _ _ S'). reflexivity. }
  destruct (Tr c) as (ev & T & E1 & E2 & _). rewrite T in *. rewrite subscribed_app in S'. rewrite after_app, recvd_app.
  pose proof (subscribed_first_prefix _ _ _ Sf) as Sf0.
  apply in_app_iff in Hc. destruct Hc as [Hc|Hc].
  - destruct (subscribed o (trace_of c j)) eqn:S; [rewrite recvd_app, (IH U0 c o k sid p b Hk Hc Sf0); reflexivity|].
    rewrite (wunasked_recvd j c o k sid p b J Hk Hc (asked_when _ _ Sf0 S)). cbn in S'. specialize (E1 o S'). cbn [app].
    rewrite (recvd_none _ _ (after_received o ev E1)), (recvd_none _ _ E1). reflexivity.
  - destruct (E2 o k sid p b Hc) as [E3 E4]. rewrite E3, E4 in S'. discriminate.
Qed.

(** *** The handler of the call is invoked at most once *)
Lemma winvoked_parity : forall j c k sid h p, ok j -> In (HInvoke k sid h p) (trace_of c j) -> N.odd sid = negb c.
Proof.
  intros j c k sid h p J H. destruct (served_in exported imported subscribable few c _ _ _ (wo_run _ _ _ _ j J c) (invoked_reply c _ _ _ _ _ H)) as (k' & r & R1 & R2).
  destruct (reacts_invoked _ _ _ _ _ _ _ _ _ R2) as [_ <-]. assert (R1' : In (k', r) (requests (trace_of (negb (negb c)) j))) by (rewrite negb_involutive; exact R1).
  destruct (wrequest_was_sent exported imported subscribable behaves j (negb c) k' r J R1') as (_ & q & Q1 & Q2). destruct Q2 as (_ & -> & _).
  exact (st_sent _ _ (sent_of _ _ _ _ j (negb c) J) _ Q1).
Qed.
Lemma wown_out : forall j, runs j -> fits room j -> forall c sid, N.odd sid = c -> on sid (sd_out (at_side c j)) = on sid (sent_by (trace_of c j)).
Proof.
  intros j H. induction H as [|j j' H IH St]; intros U c sid Hs; [destruct c; reflexivity|].
  pose proof (fits_before exported imported subscribable behaves room few j j' St U) as U0.
  pose proof (wasm_inv exported imported subscribable behaves room few j H U0) as J.
  destruct (wasm_step exported imported subscribable behaves room few j j' J St U) as [_ Tr]. specialize (IH U0 c sid Hs).
  destruct (Tr c) as (ev & T & _ & _ & [O|(-> & f & k & h & p & O & I)]).
  - rewrite O, T, sent_by_app. unfold on in *. rewrite !filter_app, IH. reflexivity.
  - rewrite O, T, app_nil_r. unfold on in *. rewrite filter_app, IH. cbn [filter]. replace (frame_stream f =? sid) with false; [apply app_nil_r|].
    symmetry. apply N.eqb_neq. intros X. pose proof (winvoked_parity j c _ _ _ _ J I) as P. rewrite X, Hs in P. now destruct c.
Qed.
Lemma wone_request : forall j, runs j -> fits room j -> forall c o k sid p b, k = RS \/ k = RC -> In (HCalled o k sid p b) (trace_of c j) ->
  (List.length (filter (on_call sid) (requests (trace_of (negb c) j))) <= 1)%nat.
Proof.
  intros j R U c o k sid p b Hk Hc. eapply Nat.le_trans; [apply requests_on|]. pose proof (wasm_inv exported imported subscribable behaves room few j R U) as J.
  destruct (wrecvd_on j (negb c) sid J) as (n & Hn). rewrite negb_involutive in Hn.
  assert (F : Forall2 frame_received (filter is_request (firstn n (on sid (sd_out (at_side c j))))) (filter is_request (recvd sid (trace_of (negb c) j)))).
  { apply Forall2_filter; [exact Hn|]. intros f g _ H. destruct f, g; cbn in H; try contradiction; reflexivity. }
  apply Forall2_len in F. rewrite <- F.
  destruct (filter_firstn _ is_request n (on sid (sd_out (at_side c j)))) as (m & ->). rewrite (wown_out j R U c sid (wcall_parity _ _ _ _ j c o k sid p b J Hc)), sent_on.
  pose proof (C98_demand_on_the_wire c _ _ _ _ _ _ (whistory _ _ _ _ j c J) Hk Hc) as S. unfold trace_of in *. rewrite S.
  rewrite firstn_length. eapply Nat.le_trans; [apply Nat.le_min_r|].
  destruct (asks o (ep_trace (sd_ep (at_side c j)))) as [|a ns]; [apply Nat.le_0_l|]. cbn [announce filter is_request List.length]. apply le_n_S.
  clear. induction ns; [apply Nat.le_refl|exact IHns].
Qed.
End C100.

(** ** C100 *)
(** Everything that reaches the flux behind a call was written by the other end
    on the stream of the call, in that order and no more often. *)
Theorem C100_nothing_invented :
  forall exported imported sb behaves room, len exported < 2 ^ 32 ->
  forall j, wruns exported imported sb behaves room j -> fits room j ->
  forall c o k sid p input, k = RS \/ k = RC -> In (HCalled o k sid p input) (trace_of c j) ->
    subseq (got o (trace_of c j)) (flat_map carried (on sid (sd_out (at_side (negb c) j)))).
Proof.
  intros exported imported sb behaves room L j R U c o k sid p input Hk Hc. pose proof (wasm_inv exported imported sb behaves room L j R U) as J.
  destruct (C98_stream_delivered c _ _ _ _ _ _ (whistory _ _ _ _ j c J) Hk Hc) as [B _]. fold (trace_of c j) in B. destruct (wrecvd_on exported imported sb behaves j c sid J) as (n & Hn).
  rewrite (carried_same _ _ Hn) in B. rewrite <- (firstn_skipn n (on sid (sd_out (at_side (negb c) j)))), flat_map_app. now apply subseq_more.
Qed.
(** If the other end writes nothing more for the caller after closing the stream:
    at every moment the flux was given a beginning of what was written, and
    all of it when everything has arrived. *)
Theorem C100_in_order :
  forall exported imported sb behaves room, len exported < 2 ^ 32 ->
  forall j, wruns exported imported sb behaves room j -> fits room j ->
  forall c o k sid p input, k = RS \/ k = RC -> In (HCalled o k sid p input) (trace_of c j) -> subscribed_first o (trace_of c j) ->
    let written := on sid (sd_out (at_side (negb c) j)) in
    closed_last written ->
    (exists n, got o (trace_of c j) = flat_map carried (firstn n written)) /\
    (List.length (received (trace_of c j)) = List.length (sd_out (at_side (negb c) j)) -> got o (trace_of c j) = flat_map carried written).
Proof.
  intros exported imported sb behaves room L j R U c o k sid p input Hk Hc Sf written Cl. pose proof (wasm_inv exported imported sb behaves room L j R U) as J.
  destruct (C98_stream_delivered c _ _ _ _ _ _ (whistory _ _ _ _ j c J) Hk Hc) as [_ A]. fold (trace_of c j) in A.
  rewrite (wstream_causal exported imported sb behaves room L j R U c o k sid p input Hk Hc Sf) in A. split.
  - destruct (wrecvd_on exported imported sb behaves j c sid J) as (n & Hn). fold written in Hn. exists n. rewrite (carried_same _ _ Hn) in A. apply A.
    eapply closed_last_received; [exact Hn|]. now apply closed_last_firstn.
  - intros E. pose proof (wrecvd_all exported imported sb behaves room L j c sid J E) as Hn. fold written in Hn. rewrite (carried_same _ _ Hn) in A. apply A.
    eapply closed_last_received; [exact Hn|exact Cl].
Qed.
(** The other end invokes one handler for the call at most, the one the payload
    selects, with that payload; and it does if it was asked for values, is
    idle, and has one. *)
Theorem C100_handler_invoked_once :
  forall exported imported sb behaves room, len exported < 2 ^ 32 ->
  forall j, wruns exported imported sb behaves room j -> fits room j ->
  forall c o k sid p input, k = RS \/ k = RC -> In (HCalled o k sid p input) (trace_of c j) ->
    let called := invocations sid (trace_of (negb c) j) in
    (called = [] \/ exists h, selected exported imported (negb c) k p = Some (h, p) /\ called = [(k, h, p)]) /\
    (asks o (trace_of c j) <> [] -> List.length (received (trace_of (negb c) j)) = List.length (sd_out (at_side c j)) -> ep_jobs (sd_ep (at_side (negb c) j)) = [] ->
     forall h q, selected exported imported (negb c) k p = Some (h, q) -> called = [(k, h, p)]).
Proof.
  intros exported imported sb behaves room L j R U c o k sid p input Hk Hc called. pose proof (wasm_inv exported imported sb behaves room L j R U) as J.
  assert (One : (List.length called <= 1)%nat).
  { eapply Nat.le_trans; [apply (invocations_replies (negb c))|]. eapply Nat.le_trans; [exact (served_count exported imported sb L (negb c) _ _ sid (wo_run _ _ _ _ j J (negb c)))|].
    exact (wone_request exported imported sb behaves room L j R U c o k sid p input Hk Hc). }
  assert (Whole : forall h q, selected exported imported (negb c) k p = Some (h, q) -> q = p).
  { intros h q S. unfold selected in S. destruct (len (py_meta p) <? 8); [discriminate|]. destruct (negb c); [|destruct (imported k _); [now injection S as _ <-|discriminate]].
    destruct (nth_error _ _) as [[i h']|]; [|discriminate]. injection S as _ <-. destruct p. destruct Hk as [-> | ->]; reflexivity. }
  assert (All : forall k' h q, In (k', h, q) called -> selected exported imported (negb c) k p = Some (h, p) /\ (k', h, q) = (k, h, p)).
  { intros k' h q Hi. apply in_invocations in Hi. destruct (served_in exported imported sb L (negb c) _ _ _ (wo_run _ _ _ _ j J (negb c)) (invoked_reply (negb c) _ _ _ _ _ Hi)) as (k2 & r & R1 & R2).
    destruct (reacts_invoked _ _ _ _ _ _ _ _ _ R2) as [<- E]. destruct (wstream_requests exported imported sb behaves j c o k sid p input k' r J Hk Hc R1 E) as (_ & -> & Z1 & Z2).
    rewrite (reacts_selected _ _ _ _ _ p Z1 Z2) in R2. destruct (selected exported imported (negb c) k p) as [[h' q']|] eqn:S; [|discriminate]. injection R2 as _ -> ->.
    rewrite (Whole h q eq_refl). auto. }
  split.
  - destruct called as [|[[k' h] q] [|x l]]; [now left| |cbn in One; lia]. right. destruct (All k' h q (or_introl eq_refl)) as [S E]. exists h. split; [exact S|]. now rewrite E.
  - intros Ha D Id h q0 S. pose proof (Whole _ _ S) as Eq. subst q0.
    pose proof (C98_demand_on_the_wire c _ _ _ _ _ _ (whistory _ _ _ _ j c J) Hk Hc) as W.
    assert (Sn : exists q, In (HSent (FRequest q)) (trace_of c j) /\ rq_stream q = sid /\ rq_type q = type_of k /\ rq_follows q = false).
    { unfold trace_of in *. destruct (asks o (ep_trace (sd_ep (at_side c j)))) as [|n ns]; [now destruct Ha|]. cbn [announce] in W.
      assert (X : In (FRequest {| rq_type := type_of k; rq_stream := sid; rq_metadata := py_meta p; rq_data := py_data p; rq_follows := false;
        rq_complete := match k with RR | FNF => true | _ => false end; rq_initial := Z.to_N (n mod 2 ^ 32) |}) (sent demand_frame sid (ep_trace (sd_ep (at_side c j))))) by (rewrite W; now left).
      unfold sent in X. apply in_flat_map in X. destruct X as (x & X1 & X2). destruct x; try (destruct X2; fail). destruct (demand_frame f && (frame_stream f =? sid)); [|destruct X2].
      destruct X2 as [->|[]]. eexists. split; [exact X1|]. repeat split. }
    destruct Sn as (q & Q1 & Q2 & Q3 & Q4).
    assert (D' : List.length (received (trace_of (negb c) j)) = List.length (sd_out (at_side (negb (negb c)) j))) by (rewrite negb_involutive; exact D).
    pose proof (wall_delivered exported imported sb behaves room L _ _ J D') as F. rewrite negb_involutive in F.
    destruct (Forall2_in_l _ _ _ _ _ _ F (wo_sent _ _ _ _ j J c _ Q1)) as (g & G1 & G2). destruct g as [|r| | | |]; cbn [frame_received] in G2; try contradiction.
    destruct G2 as (T & St & _ & _ & Fo & _). assert (Kc : kind_code (type_of k) = Some k) by (destruct k; reflexivity).
    assert (Rq : In (k, r) (requests (trace_of (negb c) j))).
    { unfold requests. apply in_flat_map. exists (HRecv (FRequest r)). split; [now apply in_received|]. rewrite T, Q3, Kc. now left. }
    pose proof (served_idle exported imported sb L (negb c) _ _ k r (wo_run _ _ _ _ j J (negb c)) Id Rq ltac:(congruence)) as Rp.
    destruct (wstream_requests exported imported sb behaves j c o k sid p input k r J Hk Hc Rq ltac:(congruence)) as (_ & _ & Z1 & Z2).
    rewrite (reacts_selected _ _ _ _ _ p Z1 Z2), S in Rp. rewrite St, Q2 in Rp.
    unfold replies in Rp. apply in_flat_map in Rp. destruct Rp as (x & X1 & X2). destruct x; try (destruct X2; fail).
    + destruct f as [| | | | |y]; try (destruct X2; fail). destruct (Bool.eqb (N.odd (er_stream y)) (negb c)); [destruct X2|]. destruct X2 as [X2|[]]. discriminate.
    + destruct X2 as [X2|[]]. injection X2 as -> -> -> ->. assert (X3 : In (k, h, p) called) by (apply in_invocations; exact X1).
      destruct called as [|y [|y' l]]; [destruct X3|destruct X3 as [->|[]]; reflexivity|cbn in One; lia].
Qed.
(** From the handler's flux to the caller's subscriber, as C94: when all has
    arrived, the caller's subscriber has seen what it would have seen of the
    flux of the handler itself. *)
Theorem C100_stream_end_to_end :
  forall exported imported sb behaves room, len exported < 2 ^ 32 ->
  forall j, wruns exported imported sb behaves room j -> fits room j ->
  forall c o k sid p input, k = RS \/ k = RC -> In (HCalled o k sid p input) (trace_of c j) -> subscribed_first o (trace_of c j) ->
  List.length (received (trace_of c j)) = List.length (sd_out (at_side (negb c) j)) ->
  let written := on sid (sd_out (at_side (negb c) j)) in
  (k = RC -> forall x, ~ In (FCancel x) written) ->
  forall C St wasm (source : nat -> list (FluxModel.fact pay bytes frame C)) code (st : St) threads sched,
    (forall s, Forall FluxProps.silent (source s)) ->
    (forall k t st st' l, code k t st = Some (st', l) -> Forall FluxProps.silent l) ->
    Forall (Forall FluxProps.silent) threads ->
    let served := FluxModel.frun wasm source code (0 :: 0 :: sched)%nat (FluxModel.finit st ([FluxModel.FSubscribe (emit sid)] :: threads)) in
    FluxModel.fc_stack served = [] -> filter data_frame written = FluxProps.observed (FluxModel.fc_trace served) ->
  let ks := until_end (FluxFacts.fcalls 0 (FluxModel.fc_trace served)) in
  got o (trace_of c j) = flat_map told ks /\
  forall subs wasm' users sched' s m, ProcProps.announces subs -> Forall ProcProps.usage users ->
    let called := ProcProps.processor subs wasm' users sched' in
    FluxModel.fc_stack called = [] -> nth_error (FluxModel.fc_subs called) s = Some m -> ~ In FluxModel.KCancel (FluxFacts.fcalls s (FluxModel.fc_trace called)) ->
    ProcProps.to_sub s (ProcProps.routed 0 (FluxModel.fc_trace called)) = map as_call (got o (trace_of c j)) ->
    FluxFacts.delivered s (FluxModel.fc_trace called) = flat_map (FluxFacts.visible (FluxModel.fs_h m)) ks.
Proof.
  intros exported imported sb behaves room L j R U c o k sid p input Hk Hc Sf D written Nc C St wasm source code st threads sched A1 A2 A3 served Hs Hw ks.
  pose proof (C62_events_become_frames C St wasm source code st threads sched sid A1 A2 A3 Hs) as F. fold served ks in F. rewrite <- Hw in F.
  pose proof (wasm_inv exported imported sb behaves room L j R U) as J.
  assert (Nc' : forall x, ~ In (FCancel x) written).
  { intros x Hx. destruct k; try (destruct Hk; discriminate); [|exact (Nc eq_refl x Hx)]. unfold written, on in Hx. apply filter_In in Hx. destruct Hx as [X1 X2]. apply N.eqb_eq in X2.
    assert (Pf : N.odd (frame_stream (FCancel x)) = c) by (rewrite X2; exact (wcall_parity _ _ _ _ j c o _ _ _ _ J Hc)).
    destruct (won_peer_stream exported imported sb behaves L j c _ J X1 Pf) as [r R1 R2 M|k r text R1 R2 R3 M|r h q y R1 R2 R3 B M|k r h q R1 R2 K R3 M].
    - destruct (wstream_requests exported imported sb behaves j c o RS sid p input RC r J Hk Hc R1 ltac:(congruence)) as (_ & Z & _). discriminate.
    - discriminate.
    - destruct y; discriminate.
    - destruct M. }
  assert (G : got o (trace_of c j) = flat_map told ks).
  { destruct (C100_in_order exported imported sb behaves room L j R U c o k sid p input Hk Hc Sf) as [_ Q].
    - fold written. apply closed_data; [exact Nc'|]. rewrite F. apply closed_frames.
    - rewrite (Q D). fold written. rewrite (carried_data _ Nc'), F. apply carried_frames. }
  split; [exact G|]. intros subs wasm' users sched' s m An Us called H1 H2 H3 H4. rewrite G in H4.
  pose proof (ProcProps.C88_subscriber_sees pay bytes subs wasm' users sched' s m An Us H1 H2 H3) as V. fold called in V. rewrite V, H4.
  pose proof (effective_told (FluxFacts.fcalls 0 (FluxModel.fc_trace served))) as E. cbn [flat_map] in E. rewrite app_nil_r in E. fold ks in E. rewrite E.
  generalize ks as l. induction l as [|y l IH]; [reflexivity|]. cbn [filter flat_map]. destruct y; cbn [FluxFacts.is_cancel negb flat_map]; rewrite IH; reflexivity.
Qed.

(** *** A run: the host asks the guest for a stream and, before it has ended, the
    guest asks the host for a channel.  The handler of the stream sends two values
    and completes, the handler of the channel sends one and fails. *)
Definition C100_put (c : bool) (f : frame) (j : joint) : joint := put_side c (write f (at_side c j)) j.
Lemma C100_emit : forall c k h p f j, In (HInvoke k (frame_stream f) h p) (trace_of c j) -> k = RS \/ k = RC ->
  match f with FPayload _ | FError _ => True | _ => False end -> C99_runs j -> C99_runs (C100_put c f j).
Proof. intros c k h p f j H1 H2 H3 R. eapply wr_step; [exact R|]. unfold C100_put. eapply WEmit; eauto. Qed.
Definition C100_pay1 : pay := {| py_data := [5]; py_meta := [0; 0; 0; 0; 0; 0; 0; 0] |}.
Definition C100_pay2 : pay := {| py_data := [6]; py_meta := [0; 0; 0; 2; 0; 0; 0; 0] |}.
Definition C100_1 := C99_do false (XRequest 0 5) (C99_do false (XSubscribe 0) (C99_do false (XCall RS C100_pay1 false) joint_init)).
Definition C100_2 := C100_put true (in_frame 2 (InNext (C94_val 41))) (C99_get true C100_1).
Definition C100_3 := C99_do true (XRequest 1 3) (C99_do true (XSubscribe 1) (C99_do true (XCall RC C100_pay2 true) C100_2)).
Definition C100_4 := C99_do false (XJob 0) (C99_get false (C99_get false C100_3)).
Definition C100_5 := C100_put true (in_frame 2 (InNext (C94_val 42))) (C100_put false (in_frame 1 (InNext (C94_val 51))) C100_4).
Definition C100_6 := C100_put false (in_frame 1 (InError [7])) (C100_put true (in_frame 2 InComplete) C100_5).
Definition C100_7 := C99_do false (XJob 0) (C99_do true (XJob 0) (C99_get true (C99_get true (C99_get false (C99_get false C100_6))))).
Lemma C100_runs : C99_runs C100_7.
Proof.
  unfold C100_7, C100_6, C100_5, C100_4, C100_3, C100_2, C100_1. do 6 C99_act.
  apply (C100_emit false RC 32 C100_pay2); [vm_compute; tauto|now right|exact I|]. apply (C100_emit true RS 21 C100_pay1); [vm_compute; tauto|now left|exact I|].
  apply (C100_emit true RS 21 C100_pay1); [vm_compute; tauto|now left|exact I|]. apply (C100_emit false RC 32 C100_pay2); [vm_compute; tauto|now right|exact I|].
  do 6 C99_act. apply (C100_emit true RS 21 C100_pay1); [vm_compute; tauto|now left|exact I|]. do 4 C99_act. constructor.
Qed.
Definition C100_served : FluxModel.fconf pay bytes frame Empty_set unit :=
  FluxModel.frun true (fun s => [FluxModel.FCall s (FluxModel.KNext (C94_val 41)); FluxModel.FCall s (FluxModel.KNext (C94_val 42)); FluxModel.FCall s FluxModel.KComplete;
      FluxModel.FCall s (FluxModel.KNext (C94_val 43))]) (fun _ _ _ => None) (0 :: 0 :: repeat 0%nat 30)%nat
    (FluxModel.finit tt [[FluxModel.FSubscribe (emit 2)]]).
Example C100_example :
  C99_runs C100_7 /\ fits C99_room C100_7 /\
  In (HCalled 0 RS 2 C100_pay1 false) (trace_of false C100_7) /\ In (HCalled 1 RC 1 C100_pay2 true) (trace_of true C100_7) /\
  subscribed_first 0 (trace_of false C100_7) /\ subscribed_first 1 (trace_of true C100_7) /\
  (forall c, List.length (received (trace_of c C100_7)) = List.length (sd_out (at_side (negb c) C100_7)) /\ ep_jobs (sd_ep (at_side c C100_7)) = []) /\
  closed_last (on 2 (sd_out (at_side true C100_7))) /\ closed_last (on 1 (sd_out (at_side false C100_7))) /\ (forall x, ~ In (FCancel x) (on 1 (sd_out (at_side false C100_7)))) /\
  invocations 2 (trace_of true C100_7) = [(RS, 21, C100_pay1)] /\ invocations 1 (trace_of false C100_7) = [(RC, 32, C100_pay2)] /\
  FluxModel.fc_stack C100_served = [] /\ filter data_frame (on 2 (sd_out (at_side true C100_7))) = FluxProps.observed (FluxModel.fc_trace C100_served) /\
  got 0 (trace_of false C100_7) = [SNext (C94_val 41); SNext (C94_val 42); SComplete] /\ got 0 (trace_of false C100_4) = [SNext (C94_val 41)] /\
  got 1 (trace_of true C100_7) = [SNext (C94_val 51); SError [7]; SComplete] /\
  ProcProps.to_sub 0 (ProcProps.routed 0 (FluxModel.fc_trace C94_called)) = map as_call (got 0 (trace_of false C100_7)) /\
  FluxFacts.delivered 0 (FluxModel.fc_trace C94_called) = [FluxModel.ONext (C94_val 41); FluxModel.ONext (C94_val 42); FluxModel.OComplete].
Proof.
  split; [exact C100_runs|]. split.
  { intros c. split; [|destruct c; vm_compute; reflexivity]. destruct c.
    - let l := eval vm_compute in (sd_out (at_side true C100_7)) in assert (E : sd_out (at_side true C100_7) = l) by (vm_compute; reflexivity). rewrite E. repeat constructor; cbn; lia.
    - let l := eval vm_compute in (sd_out (at_side false C100_7)) in assert (E : sd_out (at_side false C100_7) = l) by (vm_compute; reflexivity). rewrite E. repeat constructor; cbn; lia. }
  split; [vm_compute; tauto|]. split; [vm_compute; tauto|].
  assert (S : forall c o, subscribed_first o (trace_of c C100_7)).
  { intros c o t1 n t2 E. destruct c.
    - revert E. let l := eval vm_compute in (trace_of true C100_7) in assert (X : trace_of true C100_7 = l) by (vm_compute; reflexivity); rewrite X; clear X. intros E.
      repeat (destruct t1 as [|x t1]; [discriminate E || (injection E as <- <- <-; cbn; tauto)|]; injection E as <- E; cbn [In]); try (destruct t1; discriminate).
    - revert E. let l := eval vm_compute in (trace_of false C100_7) in assert (X : trace_of false C100_7 = l) by (vm_compute; reflexivity); rewrite X; clear X. intros E.
      repeat (destruct t1 as [|x t1]; [discriminate E || (injection E as <- <- <-; cbn; tauto)|]; injection E as <- E; cbn [In]); try (destruct t1; discriminate). }
  split; [apply S|]. split; [apply S|]. split; [intros []; vm_compute; auto|].
  split; [vm_compute; repeat split; auto; discriminate|]. split; [vm_compute; repeat split; auto; discriminate|].
  split; [|vm_compute; tauto].
  intros x Hx. revert Hx. let l := eval vm_compute in (on 1 (sd_out (at_side false C100_7))) in assert (X : on 1 (sd_out (at_side false C100_7)) = l) by (vm_compute; reflexivity); rewrite X.
  cbn [In]. intros Hx. repeat (destruct Hx as [Hx|Hx]; [discriminate Hx|]). exact Hx.
Qed.
Print Assumptions C100_nothing_invented.
Print Assumptions C100_in_order.
Print Assumptions C100_handler_invoked_once.
Print Assumptions C100_stream_end_to_end.
