(** C99, C100: calls between a host and a guest. *)
From Verif Require Import Base BaseFacts FramesModel FramesProofs FramesProps WasmModel WasmProofs WasmProps TcpModel TcpProofs TcpProps InvokeModel InvokeProofs LookupModel
  HandlerModel HandlerFacts HandlerProps HandlerCallProps HandlerServeProps HandlerCrashProps JointModel JointFacts JointProps StreamFacts StreamProps
  WasmEndModel WasmEndFacts WasmEndProps WasmCallFacts WasmCallProps WasmJointModel WasmJointFacts.
From Verif Require MonoModel MonoFacts MonoProps.
From Coq Require Import Permutation.

(** *** Specification.  The handler that a payload selects at the end that is
    called, and the payload it is to get: the first four bytes of the metadata
    are the index of an export of the guest or of an import of the host; a guest
    cuts the first eight bytes off for the handlers of calls without stream. *)
Definition selected (exported : list reg_call) (imported : kind -> N -> option N) (callee : bool) (k : kind) (p : pay) : option (N * pay) :=
  if len (py_meta p) <? 8 then None
  else
    let i := unbe (firstn 4 (py_meta p)) in
    if callee then
      match nth_error (exports_of k exported) (N.to_nat i) with
      | Some (_, h) => Some (h, {| py_data := py_data p; py_meta := match k with RR | FNF => skipn 8 (py_meta p) | _ => py_meta p end |})
      | None => None
      end
    else match imported k i with Some h => Some (h, p) | None => None end.
Definition refusal (p : pay) : bytes :=
  if len (py_meta p) <? 8 then [73; 110; 118; 97; 108; 105; 100; 32; 109; 101; 116; 97; 100; 97; 116; 97] else [110; 111; 116; 95; 102; 111; 117; 110; 100].
(** What may come back of a request-response call. *)
Definition wasm_outcome (exported : list reg_call) (imported : kind -> N -> option N) (callee : bool) (b : N -> pay -> pay + bytes -> Prop) (p : pay) (k : scall) : Prop :=
  match selected exported imported callee RR p with
  | None => k = SError (refusal p)
  | Some (h, q) => (exists v, b h q (inl v) /\ k = SNext v) \/ (exists x, b h q (inr x) /\ k = SError x)
  end.

Lemma reacts_selected : forall exported imported c k r p, rq_metadata r = py_meta p -> rq_data r = py_data p ->
  reacts exported imported c (k, r) =
    match selected exported imported c k p with None => Refused (rq_stream r) (refusal p) | Some (h, q) => Invoked k (rq_stream r) h q end.
Proof.
  intros exported imported c k r [d m] Em Ed. cbn [py_meta py_data] in *. unfold selected, refusal. cbn [py_meta py_data]. destruct c; cbn [reacts]; [unfold reaction|unfold host_reaction]; rewrite Em, Ed;
    (destruct (len m <? 8); [reflexivity|]).
  - destruct (nth_error (exports_of k exported) _) as [[i h]|]; [|reflexivity]. now destruct k.
  - now destruct (imported k _).
Qed.

Section C99.
Variable exported : list reg_call.
Variable imported : kind -> N -> option N.
Variable subscribable : bool -> N -> bool.
Variable behaves : bool -> N -> pay -> pay + bytes -> Prop.
Variable room : bool -> N.
Hypothesis few : len exported < 2 ^ 32.
Let ok := wasm_ok exported imported subscribable behaves.
Let runs := wruns exported imported subscribable behaves room.
(** Requests handled by the peer on the stream of a call are that call's request. *)
Lemma wcall_requests : forall j c o sid p b k r, ok j -> In (HCalled o RR sid p b) (trace_of c j) ->
  In (k, r) (requests (trace_of (negb c) j)) -> rq_stream r = sid ->
  subs o (trace_of c j) <> 0%nat /\ k = RR /\ rq_metadata r = py_meta p /\ rq_data r = py_data p.
Proof.
  intros j c o sid p b k r J Hc Hr Es. destruct (wrequest_was_sent exported imported subscribable behaves j c k r J Hr) as (Hk & q & Q1 & Q2).
  pose proof (C98_one_request_per_subscription c _ _ _ _ _ (whistory _ _ _ _ j c J) Hc) as S. destruct Q2 as (T & St & M & D & _).
  pose proof (demand_sent sid q _ Q1 (eq_trans (eq_sym St) Es)) as I. unfold trace_of in *. rewrite S in I. split.
  - intros Z. rewrite Z in I. destruct I.
  - apply repeat_spec in I. injection I as ->. cbn in T, M, D. rewrite T in Hk. cbn in Hk. injection Hk as <-. auto.
Qed.
Lemma wunsubscribed_quiet : forall j c o sid p b, ok j -> In (HCalled o RR sid p b) (trace_of c j) -> subscribed o (trace_of c j) = false -> recvd sid (trace_of c j) = [].
Proof.
  intros j c o sid p b J Hc Hs. destruct (recvd sid (trace_of c j)) as [|g gs] eqn:E; [reflexivity|]. exfalso.
  assert (Hg : In g (recvd sid (trace_of c j))) by (rewrite E; now left). rewrite recvd_received in Hg. apply filter_In in Hg. destruct Hg as [Hg Hgs]. apply N.eqb_eq in Hgs.
  apply in_received in Hg. destruct (wreceived_from exported imported subscribable behaves j c g J Hg) as (f & F1 & _ & F3). rewrite Hgs in F3.
  assert (Pf : N.odd (frame_stream f) = c) by (rewrite <- F3; exact (wcall_parity _ _ _ _ j c o _ _ _ _ J Hc)).
  destruct (wpeer_request _ _ _ _ (won_peer_stream exported imported subscribable behaves few j c f J F1 Pf)) as (k & r & R1 & R2).
  destruct (wcall_requests j c o sid p b k r J Hc R1 ltac:(congruence)) as (Z & _). apply Z. unfold subs.
  clear -Hs. induction (trace_of c j) as [|x t IH]; [reflexivity|]. cbn [subscribed existsb] in Hs. apply orb_false_iff in Hs. destruct Hs as [H1 H2]. cbn [filter]. rewrite H1. auto.
Qed.
Lemma wcausal : forall j, runs j -> fits room j -> forall c o sid p b, In (HCalled o RR sid p b) (trace_of c j) ->
  recvd sid (after o (trace_of c j)) = recvd sid (trace_of c j).
Proof.
  intros j H. induction H as [|j j' H IH St]; intros U c o sid p b Hc; [destruct c; destruct Hc|].
  pose proof (fits_before exported imported subscribable behaves room few j j' St U) as U0.
  pose proof (wasm_inv exported imported subscribable behaves room few j H U0) as J.
  destruct (wasm_step exported imported subscribable behaves room few j j' J St U) as [J' Tr].
  destruct (subscribed o (trace_of c j')) eqn:S'; [|rewrite (wunsubscribed_quiet j' c o sid p b J' Hc S'), (after_none _ _ S'); reflexivity].
  destruct (Tr c) as (ev & T & E1 & E2 & _). rewrite T in *. rewrite subscribed_app in S'. rewrite after_app, recvd_app.
  apply in_app_iff in Hc. destruct Hc as [Hc|Hc].
  - destruct (subscribed o (trace_of c j)) eqn:S; [rewrite recvd_app, (IH U0 c o sid p b Hc); reflexivity|].
    rewrite (wunsubscribed_quiet j c o sid p b J Hc S). cbn in S'. specialize (E1 o S'). cbn [app].
    rewrite (recvd_none _ _ (after_received o ev E1)), (recvd_none _ _ E1). reflexivity.
  - destruct (E2 o RR sid p b Hc) as [E3 E4]. rewrite E3, E4 in S'. discriminate.
Qed.
Lemma wcall_frames : forall j c o sid p b g, ok j -> In (HCalled o RR sid p b) (trace_of c j) -> In (HRecv g) (trace_of c j) -> frame_stream g = sid ->
  exists k, answer_of g = Some k /\ wasm_outcome exported imported (negb c) (behaves (negb c)) p k.
Proof.
  intros j c o sid p b g J Hc Hg Es. destruct (wreceived_from exported imported subscribable behaves j c g J Hg) as (f & F1 & F2 & F3).
  assert (Pf : N.odd (frame_stream f) = c) by (rewrite <- F3, Es; exact (wcall_parity _ _ _ _ j c o _ _ _ _ J Hc)).
  assert (A : match f with FPayload _ | FError _ => True | _ => False end -> g = f).
  { intros M. destruct f, g; cbn in F2; try contradiction; congruence. }
  destruct (won_peer_stream exported imported subscribable behaves few j c f J F1 Pf) as [r R1 R2 M|k r text R1 R2 R3 M|r h q x R1 R2 R3 B M|k r h q R1 R2 K R3 M].
  - destruct (wcall_requests j c o sid p b RC r J Hc R1 ltac:(congruence)) as (_ & Z & _). discriminate.
  - destruct (wcall_requests j c o sid p b k r J Hc R1 ltac:(congruence)) as (_ & -> & Z1 & Z2). exists (SError text).
    rewrite A by (destruct f; try discriminate M; exact I). split; [exact M|]. unfold wasm_outcome. rewrite (reacts_selected _ _ _ _ _ p Z1 Z2) in R3.
    destruct (selected _ _ _ _ _) as [[h q]|]; [discriminate|]. injection R3 as _ <-. reflexivity.
  - destruct (wcall_requests j c o sid p b RR r J Hc R1 ltac:(congruence)) as (_ & _ & Z1 & Z2). rewrite A by (rewrite M; destruct x; exact I).
    unfold wasm_outcome. rewrite (reacts_selected _ _ _ _ _ p Z1 Z2) in R3. destruct (selected _ _ _ _ _) as [[h' q']|]; [|discriminate].
    injection R3 as _ -> ->. rewrite M. destruct x as [v|v]; [exists (SNext v)|exists (SError v)]; (split; [destruct v; reflexivity|]); [left|right]; eauto.
  - destruct (wcall_requests j c o sid p b k r J Hc R1 ltac:(congruence)) as (_ & -> & _). destruct K; discriminate.
Qed.
Lemma wcall_prompt : forall j c o sid p b, ok j -> In (HCalled o RR sid p b) (trace_of c j) -> prompt (recvd sid (trace_of c j)) /\
  Forall (wasm_outcome exported imported (negb c) (behaves (negb c)) p) (answers (recvd sid (trace_of c j))) /\
  (recvd sid (trace_of c j) <> [] -> answers (recvd sid (trace_of c j)) <> []).
Proof.
  intros j c o sid p b J Hc. assert (A : forall g, In g (recvd sid (trace_of c j)) -> exists k, answer_of g = Some k /\ wasm_outcome exported imported (negb c) (behaves (negb c)) p k).
  { intros g Hg. rewrite recvd_received in Hg. apply filter_In in Hg. destruct Hg as [Hg Es]. apply N.eqb_eq in Es. apply in_received in Hg. exact (wcall_frames j c o sid p b g J Hc Hg Es). }
  revert A. generalize (recvd sid (trace_of c j)) as l. induction l as [|g l IH]; intros A; [split; [exact I|split; [constructor|auto]]|].
  destruct (A g (or_introl eq_refl)) as (k & K1 & K2). destruct IH as (_ & I2 & _); [intros; apply A; now right|].
  cbn [prompt answers flat_map]. rewrite K1. split; [exact I|]. split; [constructor; auto|discriminate].
Qed.
End C99.

(** ** C99 *)
(** Nothing but an outcome of the handler selected by the payload, applied to
    that payload, is ever delivered to a call. *)
Theorem C99_only_the_handlers_outcome :
  forall exported imported sb behaves room, len exported < 2 ^ 32 ->
  forall j, wruns exported imported sb behaves room j -> fits room j ->
  forall c o sid p input k, In (HCalled o RR sid p input) (trace_of c j) -> In k (got o (trace_of c j)) ->
    wasm_outcome exported imported (negb c) (behaves (negb c)) p k.
Proof.
  intros exported imported sb behaves room L j R U c o sid p input k Hc Hk. pose proof (wasm_inv exported imported sb behaves room L j R U) as J.
  pose proof (C98_only_answers_on_own_stream c _ _ _ _ _ (whistory _ _ _ _ j c J) Hc) as S.
  destruct (wcall_prompt exported imported sb behaves L j c o sid p input J Hc) as (_ & F & _). unfold trace_of in *. rewrite Forall_forall in F. apply F.
  clear -S Hk. induction S; [destruct Hk|right; auto|]. destruct Hk as [->|Hk]; [now left|right; auto].
Qed.
(** Once everything was delivered, the other end is idle and its handlers have
    answered, a subscribed call has an outcome of that handler, and it is the one
    that the subscriber sees. *)
Theorem C99_call_answered :
  forall exported imported sb behaves room, len exported < 2 ^ 32 ->
  forall j, wruns exported imported sb behaves room j -> fits room j ->
  forall c o sid p input, In (HCalled o RR sid p input) (trace_of c j) -> In (HSubscribed o) (trace_of c j) -> quiet c j ->
  exists k, wasm_outcome exported imported (negb c) (behaves (negb c)) p k /\ hd_error (got o (trace_of c j)) = Some k /\
    forall Q (h : MonoModel.handlers pay bytes Q (MonoModel.pcode pay bytes)) sched,
    let m := MonoModel.mrun MonoModel.proc_source MonoModel.proc_code sched
      (MonoModel.minit MonoModel.pstore0 [MonoModel.ASubscribe h :: MonoProps.results (flat_map result_of (got o (trace_of c j)))]) in
    MonoModel.mc_stack m = [] -> MonoModel.mc_threads m = [] ->
    MonoFacts.outcomes 0 (MonoModel.mc_trace m) = match k with SNext v => MonoProps.seen h (inl v) | SError x => MonoProps.seen h (inr x) | SComplete => [] end.
Proof.
  intros exported imported sb behaves room L j R U c o sid p input Hc Hs (D & Id & An). pose proof (wasm_inv exported imported sb behaves room L j R U) as J.
  pose proof (whistory _ _ _ _ j c J) as Hist. fold (trace_of c j) in Hist.
  destruct (wcall_prompt exported imported sb behaves L j c o sid p input J Hc) as (P1 & P2 & P3).
  pose proof (wcausal exported imported sb behaves room L j R U c o sid p input Hc) as Ca. rewrite <- Ca in P1, P2, P3.
  assert (Ne : recvd sid (trace_of c j) <> []).
  { (* the request arrives *)
    pose proof (C98_one_request_per_subscription c _ _ _ _ _ Hist Hc) as S.
    assert (Sn : In (HSent (asking sid p)) (trace_of c j)).
    { assert (X : In (asking sid p) (sent demand_frame sid (trace_of c j))).
      { unfold trace_of in *. rewrite S. destruct (subs o (ep_trace (sd_ep (at_side c j)))) as [|n] eqn:En; [|now left]. exfalso. unfold subs in En. apply length_zero_iff_nil in En.
        assert (Y : In (HSubscribed o) (filter (is_sub o) (ep_trace (sd_ep (at_side c j))))) by (apply filter_In; split; [exact Hs|cbn; apply N.eqb_refl]).
        rewrite En in Y. destruct Y. }
      unfold sent in X. apply in_flat_map in X. destruct X as (x & X1 & X2). destruct x; try (destruct X2; fail). destruct (demand_frame f && (frame_stream f =? sid)); [|destruct X2].
      destruct X2 as [->|[]]. exact X1. }
    pose proof (wall_delivered exported imported sb behaves room L j _ J (D (negb c))) as F. rewrite negb_involutive in F. pose proof (wall_delivered exported imported sb behaves room L j _ J (D c)) as F'.
    destruct (Forall2_in_l _ _ _ _ _ _ F (wo_sent _ _ _ _ j J c _ Sn)) as (g & G1 & G2). unfold asking in G2. destruct g as [|r| | | |]; cbn [frame_received] in G2; try contradiction.
    destruct G2 as (T & St & _ & _ & Fo & _). cbn [rq_type rq_stream] in T, St.
    assert (Rq : In (RR, r) (requests (trace_of (negb c) j))).
    { unfold requests. apply in_flat_map. exists (HRecv (FRequest r)). split; [now apply in_received|]. rewrite T. now left. }
    pose proof (served_idle exported imported sb L (negb c) _ _ RR r (wo_run _ _ _ _ j J (negb c)) Id Rq Fo) as Rp.
    assert (W : exists f, In f (sd_out (at_side (negb c) j)) /\ frame_stream f = sid).
    { unfold replies in Rp. apply in_flat_map in Rp. destruct Rp as (x & X1 & X2). destruct x; try (destruct X2; fail).
      - destruct f as [| | | | |y]; try (destruct X2; fail). destruct (Bool.eqb (N.odd (er_stream y)) (negb c)); [destruct X2|]. destruct X2 as [E|[]]. symmetry in E.
        apply reacts_refused in E. exists (FError y). split; [exact (wo_sent _ _ _ _ j J _ _ X1)|]. cbn. congruence.
      - destruct X2 as [E|[]]. symmetry in E. destruct (reacts_invoked _ _ _ _ _ _ _ _ _ E) as [-> E2]. rewrite E2 in St. subst sid0.
        destruct (An _ _ _ X1) as (o' & Ho'). exists (answer_frame sid o'). split; [exact Ho'|]. destruct o'; reflexivity. }
    destruct W as (f & W1 & W2). destruct (Forall2_in_l _ _ _ _ _ _ F' W1) as (g & V1 & V2).
    apply in_received in V1. intros Z.
    assert (Y : In g (recvd sid (trace_of c j))); [|rewrite Z in Y; destruct Y]. rewrite recvd_received. apply filter_In. split; [now apply in_received|]. apply N.eqb_eq.
    destruct (received_stream f g V2) as [E|(s & E)]; [congruence|]. now destruct (not_setup _ _ _ _ j _ f J W1 s). }
  rewrite Ca in P3. specialize (P3 Ne). rewrite <- Ca in P3.
  pose proof (C98_first_answer_delivered c _ _ _ _ _ Hist Hc P1) as F.
  pose proof (C98_subscriber_sees_first_answer c _ _ _ _ _ Hist Hc P1) as V. unfold trace_of in *.
  destruct (answers (recvd sid (after o (ep_trace (sd_ep (at_side c j)))))) as [|k ks]; [contradiction|]. exists k. split; [now inversion P2|]. split; [exact F|].
  intros Q h sched Hm1 Hm2. etransitivity; [exact (V Q h sched Hm1 Hm2)|]. destruct k; reflexivity.
Qed.

(** The host calls the second export of the guest and one that does not exist;
    the guest calls an import of the host and sends one request without a
    selector. *)
Definition C99_exports : list reg_call := [CExport RR ([97], [98]) 10; CExport RS ([97], [98]) 21; CExport RR ([97], [99]) 12].
Definition C99_imports (k : kind) (i : N) : option N := match k with RR => if i =? 5 then Some 3 else None | RC => if i =? 2 then Some 32 else None | _ => None end.
Definition C99_behaves (c : bool) (h : N) (p : pay) (r : pay + bytes) : Prop := if c then r = inl {| py_data := h :: py_data p; py_meta := py_meta p |} else r = inr (h :: py_meta p).
Definition C99_room (c : bool) : N := if c then 64 else 80.
Definition C99_step (c : bool) (x : hop) (j : joint) : res ep := side_step C99_exports C99_imports (fun _ _ => true) c x (sd_ep (at_side c j)).
Definition C99_do (c : bool) (x : hop) (j : joint) : joint := put_side c (advance x (match C99_step c x j with Ok e => e | _ => ep_init end) (at_side c j)) j.
Definition C99_reply (c : bool) (sid : N) (r : pay + bytes) (j : joint) : joint := put_side c (write (answer_frame sid r) (at_side c j)) j.
Definition C99_crossed (c : bool) (f : frame) : frame :=
  match write_frame (zeros (C99_room c)) f with
  | Ok (buf, n) => match (if c then guest_receive buf n else host_receive buf 0 n) with
                   | ([body], LoopDone) => match frame_of_bytes body with Ok g => g | _ => f end
                   | _ => f
                   end
  | _ => f
  end.
Definition C99_next (c : bool) (j : joint) : frame := nth (List.length (received (trace_of c j))) (sd_out (at_side (negb c) j)) (FCancel {| cn_stream := 0 |}).
Definition C99_get (c : bool) (j : joint) : joint := C99_do c (XFrame (C99_crossed c (C99_next c j))) j.
Definition C99_crossable (c : bool) (f : frame) : bool :=
  match write_frame (zeros (C99_room c)) f with
  | Ok (buf, n) => match (if c then guest_receive buf n else host_receive buf 0 n) with
                   | ([body], LoopDone) => match frame_of_bytes body with Ok _ => true | _ => false end
                   | _ => false
                   end
  | _ => false
  end.
Definition C99_runs := wruns C99_exports C99_imports (fun _ _ => true) C99_behaves C99_room.
Definition is_ok {A} (r : res A) : bool := match r with Ok _ => true | _ => false end.
Lemma C99_op : forall c x j, (forall f, x <> XFrame f) -> is_ok (C99_step c x j) = true -> C99_runs j -> C99_runs (C99_do c x j).
Proof.
  intros c x j Hx H R. eapply wr_step; [exact R|]. unfold C99_do. destruct (C99_step c x j) as [e| |] eqn:E; try discriminate. apply WOp; [exact Hx|exact E].
Qed.
Lemma C99_frame : forall c j, (List.length (received (trace_of c j)) <? List.length (sd_out (at_side (negb c) j)))%nat = true ->
  C99_crossable c (C99_next c j) = true -> is_ok (C99_step c (XFrame (C99_crossed c (C99_next c j))) j) = true -> C99_runs j -> C99_runs (C99_get c j).
Proof.
  intros c j Hn Hc Ho R. eapply wr_step; [exact R|]. unfold C99_get, C99_do. destruct (C99_step c _ j) as [e| |] eqn:E; try discriminate.
  eapply (WFrame _ _ _ _ _ c (C99_next c j)); [apply nth_error_nth'; now apply Nat.ltb_lt| |exact E].
  unfold C99_crossable, C99_crossed, crosses in *. destruct (write_frame (zeros (C99_room c)) (C99_next c j)) as [[buf n]| |] eqn:W; try discriminate.
  exists [], (zeros (C99_room c)), [], buf, n. rewrite app_nil_r. cbn [app]. replace (len []) with 0 by reflexivity.
  destruct (if c then guest_receive buf n else host_receive buf 0 n) as [[|body [|]] []]; try discriminate.
  exists body. destruct (frame_of_bytes body); try discriminate. repeat split; auto. apply len_zeros.
Qed.
Lemma C99_answered : forall c sid h p r j, In (HInvoke RR sid h p) (trace_of c j) -> C99_behaves c h p r -> C99_runs j -> C99_runs (C99_reply c sid r j).
Proof. intros c sid h p r j H B R. eapply wr_step; [exact R|]. unfold C99_reply. eapply WAnswer; eauto. Qed.
Definition C99_pay1 : pay := {| py_data := [5]; py_meta := [0; 0; 0; 1; 0; 0; 0; 0; 77] |}.
Definition C99_pay2 : pay := {| py_data := [6]; py_meta := [0; 0; 0; 2; 0; 0; 0; 0] |}.
Definition C99_pay3 : pay := {| py_data := [7]; py_meta := [0; 0; 0; 5; 0; 0; 0; 0; 4] |}.
Definition C99_pay4 : pay := {| py_data := [8]; py_meta := [0; 0; 0; 5] |}.
Definition C99_1 := C99_do false (XSubscribe 1) (C99_do false (XCall RR C99_pay2 false) (C99_do false (XSubscribe 0) (C99_do false (XCall RR C99_pay1 false) joint_init))).
Definition C99_2 := C99_reply true 2 (inl {| py_data := [12; 5]; py_meta := [77] |}) (C99_do true (XJob 0) (C99_get true C99_1)).
Definition C99_3 := C99_do true (XSubscribe 1) (C99_do true (XCall RR C99_pay4 false) (C99_do true (XSubscribe 0) (C99_do true (XCall RR C99_pay3 false) C99_2))).
Definition C99_4 := C99_do true (XJob 0) (C99_get true (C99_get false C99_3)).
Definition C99_5 := C99_reply false 1 (inr [3; 0; 0; 0; 5; 0; 0; 0; 0; 4]) (C99_do false (XJob 0) (C99_do false (XJob 0) (C99_get false (C99_get false (C99_get false C99_4))))).
Definition C99_6 := C99_get true (C99_get true C99_5).
Ltac C99_act :=
  match goal with
  | |- C99_runs (C99_do _ _ _) => apply C99_op; [discriminate|vm_compute; reflexivity|]
  | |- C99_runs (C99_get _ _) => apply C99_frame; [vm_compute; reflexivity|vm_compute; reflexivity|vm_compute; reflexivity|]
  end.
Example C99_example :
  C99_runs C99_6 /\ fits C99_room C99_6 /\ quiet true C99_6 /\ quiet false C99_6 /\ len C99_exports < 2 ^ 32 /\
  In (HCalled 0 RR 2 C99_pay1 false) (trace_of false C99_6) /\ In (HSubscribed 0) (trace_of false C99_6) /\ In (HCalled 0 RR 1 C99_pay3 false) (trace_of true C99_6) /\
  got 0 (trace_of false C99_6) = [SNext {| py_data := [12; 5]; py_meta := [77] |}] /\ got 1 (trace_of false C99_6) = [SError not_found] /\
  got 0 (trace_of true C99_6) = [SError [3; 0; 0; 0; 5; 0; 0; 0; 0; 4]] /\ got 1 (trace_of true C99_6) = [SError (refusal C99_pay4)].
Proof.
  split.
  { unfold C99_6, C99_5, C99_4, C99_3, C99_2, C99_1.
    do 2 C99_act. eapply (C99_answered false 1 3 C99_pay3); [vm_compute; tauto|reflexivity|]. do 12 C99_act.
    eapply (C99_answered true 2 12 {| py_data := [5]; py_meta := [77] |}); [vm_compute; tauto|reflexivity|]. do 6 C99_act. constructor. }
  split.
  { intros c. split; [|destruct c; vm_compute; reflexivity]. destruct c.
    - let l := eval vm_compute in (sd_out (at_side true C99_6)) in assert (E : sd_out (at_side true C99_6) = l) by (vm_compute; reflexivity). rewrite E. repeat constructor; cbn; lia.
    - let l := eval vm_compute in (sd_out (at_side false C99_6)) in assert (E : sd_out (at_side false C99_6) = l) by (vm_compute; reflexivity). rewrite E. repeat constructor; cbn; lia. }
  split.
  { split; [intros []; vm_compute; reflexivity|]. split; [vm_compute; reflexivity|]. intros sid h p H.
    assert (X : sid = 1). { revert H. let l := eval vm_compute in (trace_of (negb true) C99_6) in assert (E : trace_of (negb true) C99_6 = l) by (vm_compute; reflexivity); rewrite E; clear E.
      intros H. cbn [In] in H. repeat (destruct H as [H|H]; [try discriminate H; injection H; congruence|]). destruct H. }
    subst sid. exists (inr [3; 0; 0; 0; 5; 0; 0; 0; 0; 4]). vm_compute. tauto. }
  split.
  { split; [intros []; vm_compute; reflexivity|]. split; [vm_compute; reflexivity|]. intros sid h p H.
    assert (X : sid = 2). { revert H. let l := eval vm_compute in (trace_of (negb false) C99_6) in assert (E : trace_of (negb false) C99_6 = l) by (vm_compute; reflexivity); rewrite E; clear E.
      intros H. cbn [In] in H. repeat (destruct H as [H|H]; [try discriminate H; injection H; congruence|]). destruct H. }
    subst sid. exists (inl {| py_data := [12; 5]; py_meta := [77] |}). vm_compute. tauto. }
  vm_compute. tauto.
Qed.
Print Assumptions C99_only_the_handlers_outcome.
Print Assumptions C99_call_answered.
