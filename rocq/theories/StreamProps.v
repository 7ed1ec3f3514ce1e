(** C94: stream and channel calls between two ends of a connection. *)
From Verif Require Import Base BaseFacts FramesModel FramesProofs FramesProps WasmModel InvokeModel InvokeProofs LookupModel TcpModel TcpProofs TcpProps
  HandlerModel HandlerFacts HandlerProps HandlerCallProps HandlerServeProps HandlerCrashProps JointModel JointFacts JointProps StreamFacts.
From Verif Require MonoModel MonoFacts FluxModel FluxFacts FluxProps ProcProps.
From Coq Require Import Permutation.

(** *** Specification.  The frames of a list that name a stream. *)
Definition on (sid : N) (fs : list frame) : list frame := filter (fun f => frame_stream f =? sid) fs.
(** The caller requests from the subscription it was given, so after it subscribed. *)
Definition subscribed_first (o : N) (t : list hevent) : Prop :=
  forall t1 n t2, t = t1 ++ HAsked o n :: t2 -> In (HSubscribed o) t1.
Definition is_request (f : frame) : bool := match f with FRequest _ => true | _ => false end.

Lemma filter_firstn : forall A (b : A -> bool) n l, exists m, filter b (firstn n l) = firstn m (filter b l).
Proof.
  intros A b n. induction n as [|n IH]; intros l; [exists 0%nat; reflexivity|]. destruct l as [|x l]; [exists 0%nat; reflexivity|]. destruct (IH l) as (m & H).
  cbn [firstn filter]. destruct (b x); [exists (S m); cbn; now rewrite H|exists m; exact H].
Qed.
Lemma Forall2_filter : forall A B (P : A -> B -> Prop) (b : A -> bool) (b' : B -> bool) l m,
  Forall2 P l m -> (forall x y, In x l -> P x y -> b x = b' y) -> Forall2 P (filter b l) (filter b' m).
Proof.
  induction 1 as [|x y l m H1 H2 IH]; intros E; [constructor|]. cbn [filter]. rewrite <- (E x y (or_introl eq_refl) H1).
  assert (I : Forall2 P (filter b l) (filter b' m)) by (apply IH; intros; apply E; [now right|assumption]). destruct (b x); [now constructor|exact I].
Qed.
Lemma carried_received : forall f g, frame_received f g -> carried g = carried f.
Proof. intros f g H. destruct f, g; cbn in H; try contradiction; subst; reflexivity. Qed.
Lemma carried_same : forall fs gs, Forall2 frame_received fs gs -> flat_map carried gs = flat_map carried fs.
Proof. induction 1; cbn [flat_map]; [reflexivity|]. now rewrite (carried_received _ _ H), IHForall2. Qed.
Lemma closing_received : forall f g, frame_received f g -> closing g = closing f.
Proof. intros f g H. destruct f, g; cbn in H; try contradiction; subst; reflexivity. Qed.
Lemma closed_last_received : forall fs gs, Forall2 frame_received fs gs -> closed_last fs -> closed_last gs.
Proof.
  induction 1 as [|f g fs gs H1 H2 IH]; [auto|]. cbn [closed_last]. intros [A B]. rewrite (closing_received _ _ H1), (carried_same _ _ H2). auto.
Qed.
Lemma closed_last_firstn : forall n fs, closed_last fs -> closed_last (firstn n fs).
Proof. intros n fs H. rewrite <- (firstn_skipn n fs) in H. exact (proj1 (closed_last_app _ _ H)). Qed.
Lemma asked_when : forall o t, subscribed_first o t -> subscribed o t = false -> asks o t = [].
Proof.
  intros o t H S. assert (N : forall n, ~ In (HAsked o n) t).
  { intros n Hi. apply in_split in Hi. destruct Hi as (t1 & t2 & E). pose proof (H _ _ _ E) as X. assert (Y : subscribed o t = true).
    { rewrite E. unfold subscribed. apply existsb_exists. exists (HSubscribed o). split; [apply in_app_iff; now left|]. cbn. apply N.eqb_refl. }
    congruence. }
  clear H S. induction t as [|x t IH]; [reflexivity|]. assert (IH' : asks o t = []) by (apply IH; intros n Hn; apply (N n); now right).
  destruct x; cbn [asks]; auto.
  - destruct (o0 =? o) eqn:E; [|exact IH']. apply N.eqb_eq in E. subst. exfalso. apply (N n). now left.
  - destruct (o0 =? o); auto.
Qed.
Lemma subscribed_first_prefix : forall o t u, subscribed_first o (t ++ u) -> subscribed_first o t.
Proof. intros o t u H t1 n t2 E. apply (H t1 n (t2 ++ u)). rewrite E, <- app_assoc. reflexivity. Qed.

Section C94.
Variable exported : bool -> list reg_call.
Variable subscribable : bool -> N -> bool.
Variable behaves : bool -> N -> pay -> pay + bytes -> Prop.
Hypothesis few : forall c, len (exported c) < 2 ^ 32.
Let ok := joint_ok exported subscribable behaves.
(** *** Frames on the stream of a call *)
Lemma recvd_on : forall j c sid, ok j -> exists n, Forall2 frame_received (firstn n (on sid (sd_out (at_side (negb c) j)))) (recvd sid (trace_of c j)).
Proof.
  intros j c sid J. destruct (jo_recv _ _ _ j J c) as (n & Hn). unfold on. destruct (filter_firstn _ (fun f => frame_stream f =? sid) n (sd_out (at_side (negb c) j))) as (m & Hm).
  exists m. rewrite <- Hm, recvd_received. apply Forall2_filter; [exact Hn|]. intros f g Hf Hr. apply firstn_in in Hf.
  destruct (received_stream f g Hr) as [->|(s & ->)]; [reflexivity|exfalso].
  destruct (jo_out _ _ _ j J _ _ Hf) as [X|[(sid' & h & p & o & _ & _ & X)|(k & sid' & h & p & _ & _ & _ & [])]].
  - exact (st_sent _ _ (history_sent _ _ _ _ _ (jo_run _ _ _ j J (negb c))) _ X).
  - destruct o; discriminate.
Qed.
Lemma recvd_all : forall j c sid, ok j -> List.length (received (trace_of c j)) = List.length (sd_out (at_side (negb c) j)) ->
  Forall2 frame_received (on sid (sd_out (at_side (negb c) j))) (recvd sid (trace_of c j)).
Proof.
  intros j c sid J E. pose proof (all_delivered _ _ _ j c J E) as F. rewrite recvd_received. apply Forall2_filter; [exact F|]. intros f g Hf Hr.
  destruct (received_stream f g Hr) as [->|(s & ->)]; [reflexivity|exfalso].
  destruct (jo_out _ _ _ j J _ _ Hf) as [X|[(sid' & h & p & o & _ & _ & X)|(k & sid' & h & p & _ & _ & _ & [])]].
  - exact (st_sent _ _ (history_sent _ _ _ _ _ (jo_run _ _ _ j J (negb c))) _ X).
  - destruct o; discriminate.
Qed.
(** Requests handled by the peer on the stream of a call are that call's request. *)
Lemma stream_requests : forall j c o k sid p b k' r, ok j -> k = RS \/ k = RC -> In (HCalled o k sid p b) (trace_of c j) ->
  In (k', r) (requests (trace_of (negb c) j)) -> rq_stream r = sid ->
  asks o (trace_of c j) <> [] /\ k' = k /\ rq_metadata r = py_meta p /\ rq_data r = py_data p.
Proof.
  intros j c o k sid p b k' r J Hk Hc Hr Es. destruct (request_was_sent exported subscribable behaves j c k' r J Hr) as (Kd & q & Q1 & Q2).
  pose proof (C59_demand_on_the_wire _ _ _ _ _ _ _ _ _ _ (jo_run _ _ _ j J c) Hk Hc) as S. destruct Q2 as (T & St & M & D & _).
  pose proof (demand_sent sid q _ Q1 (eq_trans (eq_sym St) Es)) as I. unfold trace_of in *. rewrite S in I.
  destruct (asks o (ep_trace (sd_ep (at_side c j)))) as [|n ns]; [destruct I|]. split; [discriminate|]. cbn [announce] in I. destruct I as [I|I].
  - injection I as <-. cbn in T, M, D. rewrite T in Kd. destruct Hk as [-> | ->]; cbn in Kd; injection Kd as <-; auto.
  - apply in_map_iff in I. destruct I as (x & X & _). discriminate.
Qed.
Lemma unasked_quiet : forall j c o k sid p b, ok j -> k = RS \/ k = RC -> In (HCalled o k sid p b) (trace_of c j) -> asks o (trace_of c j) = [] ->
  on sid (sd_out (at_side (negb c) j)) = [].
Proof.
  intros j c o k sid p b J Hk Hc Hs. destruct (on sid (sd_out (at_side (negb c) j))) as [|f fs] eqn:E; [reflexivity|]. exfalso.
  assert (Hf : In f (on sid (sd_out (at_side (negb c) j)))) by (rewrite E; now left). unfold on in Hf. apply filter_In in Hf. destruct Hf as [F1 F2]. apply N.eqb_eq in F2.
  assert (Pf : N.odd (frame_stream f) = c) by (rewrite F2; exact (call_parity _ _ _ j c o _ _ _ _ J Hc)).
  destruct (peer_request _ _ _ _ (on_peer_stream exported subscribable behaves j c f few J F1 Pf)) as (k' & r & R1 & R2).
  destruct (stream_requests j c o k sid p b k' r J Hk Hc R1 ltac:(congruence)) as (Z & _). contradiction.
Qed.
Lemma unasked_recvd : forall j c o k sid p b, ok j -> k = RS \/ k = RC -> In (HCalled o k sid p b) (trace_of c j) -> asks o (trace_of c j) = [] -> recvd sid (trace_of c j) = [].
Proof.
  intros j c o k sid p b J Hk Hc Hs. destruct (recvd_on j c sid J) as (n & H). rewrite (unasked_quiet j c o k sid p b J Hk Hc Hs), firstn_nil in H. now inversion H.
Qed.
Lemma stream_causal : forall j, jruns exported subscribable behaves j -> usable j -> forall c o k sid p b, k = RS \/ k = RC -> In (HCalled o k sid p b) (trace_of c j) ->
  subscribed_first o (trace_of c j) -> recvd sid (after o (trace_of c j)) = recvd sid (trace_of c j).
Proof.
  intros j H. induction H as [|j j' H IH St]; intros U c o k sid p b Hk Hc Sf; [destruct c; destruct Hc|].
  pose proof (usable_before exported subscribable behaves j j' St U) as U0.
  pose proof (joint_inv exported subscribable behaves j H U0) as J.
  pose proof (joint_inv exported subscribable behaves j' (jr_step _ _ _ _ _ H St) U) as J'.
  destruct (subscribed o (trace_of c j')) eqn:S'.
  2:{ rewrite (unasked_recvd j' c o k sid p b J' Hk Hc (asked_when _ _ Sf S')), (after_none _ _ S'). reflexivity. }
  destruct (step_trace exported subscribable behaves few j j' J St U c) as (ev & T & E1 & E2). rewrite T in *. rewrite subscribed_app in S'. rewrite after_app, recvd_app.
  pose proof (subscribed_first_prefix _ _ _ Sf) as Sf0.
  apply in_app_iff in Hc. destruct Hc as [Hc|Hc].
  - destruct (subscribed o (trace_of c j)) eqn:S; [rewrite recvd_app, (IH U0 c o k sid p b Hk Hc Sf0); reflexivity|].
    rewrite (unasked_recvd j c o k sid p b J Hk Hc (asked_when _ _ Sf0 S)). cbn in S'. specialize (E1 o S'). cbn [app].
    rewrite (recvd_none _ _ (after_received o ev E1)), (recvd_none _ _ E1). reflexivity.
  - destruct (E2 o k sid p b Hc) as [E3 E4]. rewrite E3, E4 in S'. discriminate.
Qed.
Lemma call_stream : forall j c o k sid p b, ok j -> k = RS \/ k = RC -> In (HCalled o k sid p b) (trace_of c j) ->
  exists R, stream_at o sid (trace_of c j) R.
Proof.
  intros j c o k sid p b J Hk Hc. destruct (history_stream _ _ _ _ _ (jo_run _ _ _ j J c)) as [[O S] G]. destruct (history_flux _ _ _ _ _ (jo_run _ _ _ j J c)) as [F _].
  destruct (fo_called c _ F o k sid p b Hc) as (x & X1 & X2). destruct x as [r|s|]; cbn in X2; [destruct X2 as [-> _]; destruct Hk; discriminate| |destruct X2].
  destruct X2 as (_ & X2 & _). apply (f_equal rq_stream) in X2. cbn in X2. pose proof (S o s X1) as A. rewrite X2 in A. eauto.
Qed.

(** *** The handler of the call is invoked at most once *)
Lemma invoked_parity : forall j c k sid h p, ok j -> In (HInvoke k sid h p) (trace_of c j) -> N.odd sid = negb c.
Proof.
  intros j c k sid h p J H. destruct (reply_reason exported subscribable behaves j c _ few J (invoked_reply c _ _ _ _ _ H)) as (k' & r & R1 & R2).
  destruct (reaction_invoked _ _ _ _ _ _ _ R2) as [_ <-]. assert (R1' : In (k', r) (requests (trace_of (negb (negb c)) j))) by (rewrite negb_involutive; exact R1).
  destruct (request_was_sent exported subscribable behaves j (negb c) k' r J R1') as (_ & q & Q1 & Q2). destruct Q2 as (_ & -> & _).
  exact (st_sent _ _ (history_sent _ _ _ _ _ (jo_run _ _ _ j J (negb c))) _ Q1).
Qed.
Lemma own_out : forall j, jruns exported subscribable behaves j -> usable j -> forall c sid, N.odd sid = c -> on sid (sd_out (at_side c j)) = on sid (sent_by (trace_of c j)).
Proof.
  intros j H. induction H as [|j j' H IH St]; intros U c sid Hs; [destruct c; reflexivity|].
  pose proof (usable_before exported subscribable behaves j j' St U) as U0.
  pose proof (joint_inv exported subscribable behaves j H U0) as J.
  assert (Op : forall d x e', hstep (reg_run (exported d)) (subscribable d) d x (sd_ep (at_side d j)) = Ok e' -> usable (put_side d (advance x e' (at_side d j)) j) ->
    on sid (sd_out (at_side c (put_side d (advance x e' (at_side d j)) j))) = on sid (sent_by (trace_of c (put_side d (advance x e' (at_side d j)) j)))).
  { intros d x e' Hst Us. unfold trace_of. destruct (side_cases d c) as [->| ->]; [|rewrite at_put_other; apply IH; auto]. rewrite at_put_same. set (s := at_side d j) in *.
    destruct (jo_run _ _ _ j J d) as (R1 & R2 & R3). fold s in R1, R2, R3. destruct (Us d) as [_ U2]. rewrite at_put_same in U2. cbn [advance sd_ops sd_ep sd_out] in *.
    change (2 ^ 30) with 1073741824 in R2, U2.
    destruct (good_run (reg_run (exported d)) (subscribable d) d (sd_ops s) ep_init (sd_ep s) (good_init d) ltac:(cbn [ep_init ep_ids]; lia) R3 R1) as [Gd Ids].
    cbn [ep_init ep_ids] in Ids.
    assert (Vw : view (reg_run (exported d)) (subscribable d) d x (sd_ep s) e').
    { apply hstep_view; auto. intros Hx. rewrite calls_app, calls_cons, Hx in U2. lia. }
    destruct (view_grows _ _ _ _ _ _ Vw) as (ev & T & _). rewrite T, skipn_app, skipn_all, Nat.sub_diag. cbn [skipn app]. rewrite sent_by_app. unfold on. rewrite !filter_app. f_equal.
    apply (IH U0 d sid Hs). }
  assert (Wr : forall d f sid', frame_stream f = sid' -> N.odd sid' = negb d ->
    on sid (sd_out (at_side c (put_side d (write f (at_side d j)) j))) = on sid (sent_by (trace_of c (put_side d (write f (at_side d j)) j)))).
  { intros d f sid' E P. unfold trace_of. destruct (side_cases d c) as [->| ->]; [|rewrite at_put_other; apply IH; auto]. rewrite at_put_same. cbn [write sd_out sd_ep].
    unfold on. rewrite filter_app. cbn [filter]. replace (frame_stream f =? sid) with false; [rewrite app_nil_r; apply (IH U0 d sid Hs)|].
    symmetry. apply N.eqb_neq. intros X. rewrite X in E. rewrite <- E, Hs in P. now destruct d. }
  destruct St as [d x j e' Hx Hst|d g j e' Hr Hst|d sid' h p r j Hi Hb|d k sid' h p f j Hi Hk Hs' Hf].
  - apply Op; auto.
  - apply Op; auto.
  - apply (Wr d _ sid'); [destruct r; reflexivity|]. eapply invoked_parity; eauto.
  - apply (Wr d _ sid'); [exact Hs'|]. eapply invoked_parity; eauto.
Qed.
Lemma sent_on : forall sid t, filter is_request (on sid (sent_by t)) = filter is_request (sent demand_frame sid t).
Proof.
  intros sid t. induction t as [|x t IH]; [reflexivity|]. unfold sent_by, sent, on in *. cbn [flat_map]. rewrite filter_app, !filter_app, IH. f_equal.
  destruct x; try reflexivity. cbn [filter]. destruct (frame_stream f =? sid) eqn:E; [|rewrite andb_false_r; reflexivity]. rewrite andb_true_r. destruct f; reflexivity.
Qed.
Definition on_call (sid : N) (kr : kind * request) : bool := rq_stream (snd kr) =? sid.
Lemma requests_on : forall sid t, (List.length (filter (on_call sid) (requests t)) <= List.length (filter is_request (recvd sid t)))%nat.
Proof.
  intros sid t. induction t as [|x t IH]; [apply Nat.le_refl|]. unfold requests, recvd in *. cbn [flat_map]. rewrite !filter_app, !app_length. apply Nat.add_le_mono; [|exact IH].
  destruct x; try apply Nat.le_0_l. destruct f as [|r| | | |]; try apply Nat.le_0_l. destruct (kind_code (rq_type r)) as [k|]; [|apply Nat.le_0_l].
  cbn [filter]. unfold on_call. cbn [snd frame_stream]. destruct (rq_stream r =? sid); apply Nat.le_refl.
Qed.
Lemma one_request_frame : forall j, jruns exported subscribable behaves j -> usable j -> forall c o k sid p b, k = RS \/ k = RC -> In (HCalled o k sid p b) (trace_of c j) ->
  (List.length (filter is_request (recvd sid (trace_of (negb c) j))) <= 1)%nat.
Proof.
  intros j R U c o k sid p b Hk Hc. pose proof (joint_inv exported subscribable behaves j R U) as J.
  destruct (recvd_on j (negb c) sid J) as (n & Hn). rewrite negb_involutive in Hn.
  assert (F : Forall2 frame_received (filter is_request (firstn n (on sid (sd_out (at_side c j))))) (filter is_request (recvd sid (trace_of (negb c) j)))).
  { apply Forall2_filter; [exact Hn|]. intros f g _ H. destruct f, g; cbn in H; try contradiction; reflexivity. }
  apply Forall2_len in F. rewrite <- F.
  destruct (filter_firstn _ is_request n (on sid (sd_out (at_side c j)))) as (m & ->). rewrite (own_out j R U c sid (call_parity _ _ _ j c o k sid p b J Hc)), sent_on.
  pose proof (C59_demand_on_the_wire _ _ _ _ _ _ _ _ _ _ (jo_run _ _ _ j J c) Hk Hc) as S. unfold trace_of in *. rewrite S.
  rewrite firstn_length. eapply Nat.le_trans; [apply Nat.le_min_r|].
  destruct (asks o (ep_trace (sd_ep (at_side c j)))) as [|a ns]; [apply Nat.le_0_l|]. cbn [announce filter is_request List.length]. apply le_n_S.
  clear. induction ns; [apply Nat.le_refl|exact IHns].
Qed.
Lemma one_request : forall j, jruns exported subscribable behaves j -> usable j -> forall c o k sid p b, k = RS \/ k = RC -> In (HCalled o k sid p b) (trace_of c j) ->
  (List.length (filter (on_call sid) (requests (trace_of (negb c) j))) <= 1)%nat.
Proof. intros j R U c o k sid p b Hk Hc. eapply Nat.le_trans; [apply requests_on|]. eapply one_request_frame; eauto. Qed.
End C94.

(** ** C94 *)
(** Everything that reaches the flux behind a call was written by the other end
    on the stream of the call, in that order and no more often; whatever either
    end does. *)
Theorem C94_nothing_invented :
  forall exported sb behaves, (forall c, len (exported c) < 2 ^ 32) ->
  forall j, jruns exported sb behaves j -> usable j ->
  forall c o k sid p input, k = RS \/ k = RC -> In (HCalled o k sid p input) (trace_of c j) ->
    subseq (got o (trace_of c j)) (flat_map carried (on sid (sd_out (at_side (negb c) j)))).
Proof.
  intros exported sb behaves L j R U c o k sid p input Hk Hc. pose proof (joint_inv exported sb behaves j R U) as J.
  destruct (call_stream exported sb behaves j c o k sid p input J Hk Hc) as (Q & [_ B _]). destruct (recvd_on exported sb behaves j c sid J) as (n & Hn).
  rewrite <- carried_all, (carried_same _ _ Hn) in B. rewrite <- (firstn_skipn n (on sid (sd_out (at_side (negb c) j)))), flat_map_app. now apply subseq_more.
Qed.
(** If the other end writes nothing more for the caller after closing the stream:
    at every moment the flux was given a beginning of what was written, and
    all of it when everything has arrived. *)
Theorem C94_in_order :
  forall exported sb behaves, (forall c, len (exported c) < 2 ^ 32) ->
  forall j, jruns exported sb behaves j -> usable j ->
  forall c o k sid p input, k = RS \/ k = RC -> In (HCalled o k sid p input) (trace_of c j) -> subscribed_first o (trace_of c j) ->
    let written := on sid (sd_out (at_side (negb c) j)) in
    closed_last written ->
    (exists n, got o (trace_of c j) = flat_map carried (firstn n written)) /\
    (List.length (received (trace_of c j)) = List.length (sd_out (at_side (negb c) j)) -> got o (trace_of c j) = flat_map carried written).
Proof.
  intros exported sb behaves L j R U c o k sid p input Hk Hc Sf written Cl. pose proof (joint_inv exported sb behaves j R U) as J.
  destruct (call_stream exported sb behaves j c o k sid p input J Hk Hc) as (Q & [_ _ A]).
  rewrite (stream_causal exported sb behaves L j R U c o k sid p input Hk Hc Sf) in A. rewrite <- carried_all in A. split.
  - destruct (recvd_on exported sb behaves j c sid J) as (n & Hn). fold written in Hn. exists n. rewrite (carried_same _ _ Hn) in A. apply A.
    eapply closed_last_received; [exact Hn|]. now apply closed_last_firstn.
  - intros E. pose proof (recvd_all exported sb behaves j c sid J E) as Hn. fold written in Hn. rewrite (carried_same _ _ Hn) in A. apply A.
    eapply closed_last_received; [exact Hn|exact Cl].
Qed.

(** The handlers invoked on a stream. *)
Definition invocations (sid : N) (t : list hevent) : list (kind * N * pay) :=
  flat_map (fun x => match x with HInvoke k s h p => if s =? sid then [(k, h, p)] else [] | _ => [] end) t.
Definition reply_on (sid : N) (x : reply) : bool := match x with Invoked _ s _ _ | Refused s _ => s =? sid end.
Lemma invocations_replies : forall c sid t, (List.length (invocations sid t) <= List.length (filter (reply_on sid) (replies c t)))%nat.
Proof.
  intros c sid t. induction t as [|x t IH]; [apply Nat.le_refl|]. unfold invocations, replies in *. cbn [flat_map]. rewrite filter_app, !app_length. apply Nat.add_le_mono; [|exact IH].
  destruct x; try apply Nat.le_0_l. cbn. destruct (sid0 =? sid); apply Nat.le_refl.
Qed.
Lemma reaction_on : forall ex sid l, List.length (filter (reply_on sid) (map (reaction ex) l)) = List.length (filter (on_call sid) l).
Proof.
  intros ex sid l. induction l as [|[k r] l IH]; [reflexivity|]. cbn [map filter]. unfold on_call at 1. cbn [snd].
  assert (E : reply_on sid (reaction ex (k, r)) = (rq_stream r =? sid)).
  { unfold reaction. destruct (len (rq_metadata r) <? 8); [reflexivity|]. destruct (nth_error _ _) as [[i h]|]; reflexivity. }
  rewrite E. destruct (rq_stream r =? sid); cbn [List.length]; now rewrite IH.
Qed.
Lemma Permutation_filter_len : forall A (b : A -> bool) l m, Permutation l m -> List.length (filter b l) = List.length (filter b m).
Proof.
  induction 1 as [|x l m H IH|x y l|l m n H1 IH1 H2 IH2]; cbn [filter]; auto; [destruct (b x); cbn; congruence|destruct (b x), (b y); reflexivity|congruence].
Qed.
Lemma in_invocations : forall k h p sid t, In (k, h, p) (invocations sid t) <-> In (HInvoke k sid h p) t.
Proof.
  intros k h p sid t. unfold invocations. rewrite in_flat_map. split.
  - intros (x & X1 & X2). destruct x; try (destruct X2; fail). destruct (sid0 =? sid) eqn:E; [|destruct X2]. apply N.eqb_eq in E. subst. destruct X2 as [X2|[]]. now injection X2 as -> -> ->.
  - intros H. eexists. split; [exact H|]. cbn. rewrite N.eqb_refl. now left.
Qed.
(** The other end invokes one handler for the call at most, the one the payload
    selects, with that payload; and it does if it was asked for values, is
    idle, and has one. *)
Theorem C94_handler_invoked_once :
  forall exported sb behaves, (forall c, len (exported c) < 2 ^ 32) ->
  forall j, jruns exported sb behaves j -> usable j ->
  forall c o k sid p input, k = RS \/ k = RC -> In (HCalled o k sid p input) (trace_of c j) ->
    let called := invocations sid (trace_of (negb c) j) in
    let selected := if len (py_meta p) <? 8 then None else nth_error (exports_of k (exported (negb c))) (N.to_nat (unbe (firstn 4 (py_meta p)))) in
    (called = [] \/ exists i h, selected = Some (i, h) /\ called = [(k, h, p)]) /\
    (asks o (trace_of c j) <> [] -> List.length (received (trace_of (negb c) j)) = List.length (sd_out (at_side c j)) -> ep_jobs (sd_ep (at_side (negb c) j)) = [] ->
     forall i h, selected = Some (i, h) -> called = [(k, h, p)]).
Proof.
  intros exported sb behaves L j R U c o k sid p input Hk Hc called selected. pose proof (joint_inv exported sb behaves j R U) as J.
  assert (One : (List.length called <= 1)%nat).
  { eapply Nat.le_trans; [apply (invocations_replies (negb c))|]. pose proof (C61_every_request_served_once _ _ _ _ _ (L (negb c)) (jo_run _ _ _ j J (negb c))) as P.
    apply (Permutation_filter_len _ (reply_on sid)) in P. rewrite filter_app, app_length, !reaction_on in P.
    pose proof (one_request exported sb behaves L j R U c o k sid p input Hk Hc) as Q. unfold trace_of in *. lia. }
  assert (Sel : forall k' r h q, In (k', r) (requests (trace_of (negb c) j)) -> rq_stream r = sid -> reaction (exported (negb c)) (k', r) = Invoked k' sid h q ->
    (exists i, selected = Some (i, h)) /\ (k', h, q) = (k, h, p)).
  { intros k' r h q R1 R2 R3. destruct (stream_requests exported sb behaves j c o k sid p input k' r J Hk Hc R1 R2) as (_ & -> & Z1 & Z2).
    unfold reaction in R3. rewrite Z1, Z2 in R3. unfold selected. destruct (len (py_meta p) <? 8); [discriminate|]. destruct (nth_error _ _) as [[i h']|]; [|discriminate].
    injection R3 as _ -> <-. split; [eauto|]. destruct p. destruct Hk as [-> | ->]; reflexivity. }
  assert (All : forall k' h q, In (k', h, q) called -> (exists i, selected = Some (i, h)) /\ (k', h, q) = (k, h, p)).
  { intros k' h q Hi. apply in_invocations in Hi. destruct (reply_reason exported sb behaves j (negb c) _ L J (invoked_reply (negb c) _ _ _ _ _ Hi)) as (k2 & r & R1 & R2).
    destruct (reaction_invoked _ _ _ _ _ _ _ R2) as [<- E]. now apply (Sel k' r). }
  split.
  - destruct called as [|[[k' h] q] [|x l]]; [now left| |cbn in One; lia]. right. destruct (All k' h q (or_introl eq_refl)) as [(i & S) E]. exists i, h. split; [exact S|]. now rewrite E.
  - intros Ha D Id i h S.
    pose proof (C59_demand_on_the_wire _ _ _ _ _ _ _ _ _ _ (jo_run _ _ _ j J c) Hk Hc) as W.
    assert (Sn : exists q, In (HSent (FRequest q)) (trace_of c j) /\ rq_stream q = sid /\ rq_type q = type_of k).
    { unfold trace_of in *. destruct (asks o (ep_trace (sd_ep (at_side c j)))) as [|n ns]; [now destruct Ha|]. cbn [announce] in W.
      assert (X : In (FRequest {| rq_type := type_of k; rq_stream := sid; rq_metadata := py_meta p; rq_data := py_data p; rq_follows := false;
        rq_complete := match k with RR | FNF => true | _ => false end; rq_initial := Z.to_N (n mod 2 ^ 32) |}) (sent demand_frame sid (ep_trace (sd_ep (at_side c j))))) by (rewrite W; now left).
      unfold sent in X. apply in_flat_map in X. destruct X as (x & X1 & X2). destruct x; try (destruct X2; fail). destruct (demand_frame f && (frame_stream f =? sid)); [|destruct X2].
      destruct X2 as [->|[]]. eexists. split; [exact X1|]. split; reflexivity. }
    destruct Sn as (q & Q1 & Q2 & Q3).
    assert (D' : List.length (received (trace_of (negb c) j)) = List.length (sd_out (at_side (negb (negb c)) j))) by (rewrite negb_involutive; exact D).
    pose proof (all_delivered _ _ _ _ _ J D') as F. rewrite negb_involutive in F.
    destruct (Forall2_in_l _ _ _ _ _ _ F (jo_sent _ _ _ j J c _ Q1)) as (g & G1 & G2). destruct g as [|r| | | |]; cbn [frame_received] in G2; try contradiction.
    destruct G2 as (T & St & _). assert (Kc : kind_code (type_of k) = Some k) by (destruct k; reflexivity).
    assert (Rq : In (k, r) (requests (trace_of (negb c) j))).
    { unfold requests. apply in_flat_map. exists (HRecv (FRequest r)). split; [now apply in_received|]. rewrite T, Q3, Kc. now left. }
    pose proof (C61_idle_all_answered _ _ _ _ _ (L (negb c)) (jo_run _ _ _ j J (negb c)) Id) as Pm.
    assert (Rp : In (reaction (exported (negb c)) (k, r)) (replies (negb c) (trace_of (negb c) j))).
    { eapply Permutation_in; [symmetry; exact Pm|]. apply in_map. exact Rq. }
    destruct (stream_requests exported sb behaves j c o k sid p input k r J Hk Hc Rq ltac:(congruence)) as (_ & _ & Z1 & Z2).
    assert (Er : reaction (exported (negb c)) (k, r) = Invoked k sid h p).
    { unfold reaction. rewrite Z1, Z2. unfold selected in S. destruct (len (py_meta p) <? 8); [discriminate|]. rewrite S. rewrite St, Q2. f_equal. destruct p. destruct Hk as [-> | ->]; reflexivity. }
    rewrite Er in Rp. unfold replies in Rp. apply in_flat_map in Rp. destruct Rp as (x & X1 & X2). destruct x; try (destruct X2; fail).
    + destruct f as [| | | | |y]; try (destruct X2; fail). destruct (Bool.eqb (N.odd (er_stream y)) (negb c)); [destruct X2|]. destruct X2 as [X2|[]]. discriminate.
    + destruct X2 as [X2|[]]. injection X2 as -> -> -> ->. apply in_invocations in X1. fold called in X1.
      destruct called as [|y [|y' l]]; [destruct X1|destruct X1 as [->|[]]; reflexivity|cbn in One; lia].
Qed.

(** What the calls made on the sink of the handler's flux are for the caller. *)
Definition told (k : FluxModel.fcall pay bytes) : list scall :=
  match k with
  | FluxModel.KNext p => [SNext p] | FluxModel.KComplete => [SComplete] | FluxModel.KError x => [SError x; SComplete] | FluxModel.KCancel => []
  end.
Definition as_call (k : scall) : FluxModel.fcall pay bytes :=
  match k with SNext p => FluxModel.KNext p | SError x => FluxModel.KError x | SComplete => FluxModel.KComplete end.
Definition data_frame (f : frame) : bool := match f with FPayload _ | FError _ => true | _ => false end.
Lemma carried_data : forall fs, (forall x, ~ In (FCancel x) fs) -> flat_map carried fs = flat_map carried (filter data_frame fs).
Proof.
  induction fs as [|f fs IH]; intros H; [reflexivity|]. assert (IH' := IH (fun x Hx => H x (or_intror Hx))). cbn [flat_map filter].
  destruct f as [| | |x| |]; cbn [data_frame carried flat_map app]; rewrite IH'; try reflexivity. destruct (H x). now left.
Qed.
Lemma closed_data : forall fs, (forall x, ~ In (FCancel x) fs) -> closed_last (filter data_frame fs) -> closed_last fs.
Proof.
  induction fs as [|f fs IH]; intros H C; [exact I|]. assert (H' : forall x, ~ In (FCancel x) fs) by (intros x Hx; exact (H x (or_intror Hx))).
  cbn [filter closed_last] in *. destruct f as [| | |x| |]; cbn [data_frame] in C; try (split; [discriminate|now apply IH]).
  - destruct (H x). now left.
  - destruct C as [C1 C2]. split; [|now apply IH]. intros X. rewrite (carried_data _ H'). auto.
  - destruct C as [C1 C2]. split; [|now apply IH]. intros X. rewrite (carried_data _ H'). auto.
Qed.
Lemma carried_frames : forall sid ks, flat_map carried (flat_map (stream_frame sid) ks) = flat_map told ks.
Proof. intros sid ks. induction ks as [|k ks IH]; [reflexivity|]. cbn [flat_map]. rewrite flat_map_app, IH. f_equal. destruct k as [p| | |]; try reflexivity. now destruct p. Qed.
Lemma closed_frames : forall sid ks, closed_last (flat_map (stream_frame sid) (until_end ks)).
Proof.
  intros sid ks. induction ks as [|k ks IH]; [exact I|]. destruct k; cbn; auto. split; [discriminate|exact IH].
Qed.
Lemma effective_told : forall ks, flat_map (FluxFacts.effective (V := pay) (E := bytes)) [map as_call (flat_map told (until_end ks))] =
  filter (fun k => negb (FluxFacts.is_cancel k)) (until_end ks).
Proof.
  intros ks. cbn [flat_map]. rewrite app_nil_r. induction ks as [|k ks IH]; [reflexivity|]. destruct k; cbn; try reflexivity. now rewrite IH.
Qed.
(** If all that the other end writes for the caller are the frames of the calls
    on a sink up to its end, and all has arrived, then those calls reached the flux
    behind the call. *)
Lemma carried_stream :
  forall exported sb behaves, (forall c, len (exported c) < 2 ^ 32) ->
  forall j, jruns exported sb behaves j -> usable j ->
  forall c o k sid p input, k = RS \/ k = RC -> In (HCalled o k sid p input) (trace_of c j) -> subscribed_first o (trace_of c j) ->
  List.length (received (trace_of c j)) = List.length (sd_out (at_side (negb c) j)) ->
  let written := on sid (sd_out (at_side (negb c) j)) in
  (k = RC -> forall x, ~ In (FCancel x) written) ->
  forall l, filter data_frame written = flat_map (stream_frame sid) (until_end l) -> got o (trace_of c j) = flat_map told (until_end l).
Proof.
  intros exported sb behaves L j R U c o k sid p input Hk Hc Sf D written Nc l F.
  pose proof (joint_inv exported sb behaves j R U) as J.
  assert (Nc' : forall x, ~ In (FCancel x) written).
  { intros x Hx. destruct k; try (destruct Hk; discriminate); [|exact (Nc eq_refl x Hx)]. unfold written, on in Hx. apply filter_In in Hx. destruct Hx as [X1 X2]. apply N.eqb_eq in X2.
    assert (Pf : N.odd (frame_stream (FCancel x)) = c) by (rewrite X2; exact (call_parity _ _ _ j c o _ _ _ _ J Hc)).
    destruct (on_peer_stream exported sb behaves j c _ L J X1 Pf) as [r R1 R2 M|k r text R1 R2 R3 M|r h q y R1 R2 R3 B M|k r h q R1 R2 K R3 M].
    - destruct (stream_requests exported sb behaves j c o RS sid p input RC r J Hk Hc R1 ltac:(congruence)) as (_ & Z & _). discriminate.
    - discriminate.
    - destruct y; discriminate.
    - destruct M. }
  destruct (C94_in_order exported sb behaves L j R U c o k sid p input Hk Hc Sf) as [_ Q].
  - fold written. apply closed_data; [exact Nc'|]. rewrite F. apply closed_frames.
  - rewrite (Q D). fold written. rewrite (carried_data _ Nc'), F. apply carried_frames.
Qed.
(** From the handler's flux to the caller's subscriber.  The responder is
    subscribed to the flux that the handler returned and writes what C62 says;
    the caller is subscribed to the processor behind the call, which is pushed what
    reached the call.  When all has arrived, the caller's subscriber has seen
    what it would have seen of the handler's flux itself. *)
Theorem C94_stream_end_to_end :
  forall exported sb behaves, (forall c, len (exported c) < 2 ^ 32) ->
  forall j, jruns exported sb behaves j -> usable j ->
  forall c o k sid p input, k = RS \/ k = RC -> In (HCalled o k sid p input) (trace_of c j) -> subscribed_first o (trace_of c j) ->
  List.length (received (trace_of c j)) = List.length (sd_out (at_side (negb c) j)) ->
  let written := on sid (sd_out (at_side (negb c) j)) in
  (k = RC -> forall x, ~ In (FCancel x) written) ->
  forall C St wasm (source : nat -> list (FluxModel.fact pay bytes frame C)) code (st : St) threads sched,
    (forall s, Forall FluxProps.silent (source s)) ->
    (forall k t st st' l, code k t st = Some (st', l) -> Forall FluxProps.silent l) ->
    Forall (Forall FluxProps.silent) threads ->
    let served := FluxModel.frun wasm source code (0 :: 0 :: sched)%nat (FluxModel.finit st ([FluxModel.FSubscribe (emit sid)] :: threads)) in
    FluxModel.fc_stack served = [] -> filter data_frame written = FluxProps.observed (FluxModel.fc_trace served) ->
  let ks := until_end (FluxFacts.fcalls 0 (FluxModel.fc_trace served)) in
  got o (trace_of c j) = flat_map told ks /\
  forall subs wasm' users sched' s m, ProcProps.announces subs -> Forall ProcProps.usage users ->
    let called := ProcProps.processor subs wasm' users sched' in
    FluxModel.fc_stack called = [] -> nth_error (FluxModel.fc_subs called) s = Some m -> ~ In FluxModel.KCancel (FluxFacts.fcalls s (FluxModel.fc_trace called)) ->
    ProcProps.to_sub s (ProcProps.routed 0 (FluxModel.fc_trace called)) = map as_call (got o (trace_of c j)) ->
    FluxFacts.delivered s (FluxModel.fc_trace called) = flat_map (FluxFacts.visible (FluxModel.fs_h m)) ks.
Proof.
  intros exported sb behaves L j R U c o k sid p input Hk Hc Sf D written Nc C St wasm source code st threads sched A1 A2 A3 served Hs Hw ks.
  pose proof (C62_events_become_frames C St wasm source code st threads sched sid A1 A2 A3 Hs) as F. fold served ks in F. rewrite <- Hw in F.
  pose proof (carried_stream exported sb behaves L j R U c o k sid p input Hk Hc Sf D Nc _ F) as G. fold ks in G.
  split; [exact G|]. intros subs wasm' users sched' s m An Us called H1 H2 H3 H4. rewrite G in H4.
  pose proof (ProcProps.C88_subscriber_sees pay bytes subs wasm' users sched' s m An Us H1 H2 H3) as V. fold called in V. rewrite V, H4.
  pose proof (effective_told (FluxFacts.fcalls 0 (FluxModel.fc_trace served))) as E. cbn [flat_map] in E. rewrite app_nil_r in E. fold ks in E. rewrite E.
  generalize ks as l. induction l as [|y l IH]; [reflexivity|]. cbn [filter flat_map]. destruct y; cbn [FluxFacts.is_cancel negb flat_map]; rewrite IH; reflexivity.
Qed.

(** *** A run: the client asks for a stream and, before it has ended, for a
    channel.  The handler of the stream sends two values and completes.  The
    handler of the channel sends a value, then cancels its input and sends
    another value. *)
Definition C94_exports (c : bool) : list reg_call := if c then [] else [CExport RC ([97], [98]) 31; CExport RS ([97], [98]) 20; CExport RS ([97], [99]) 21].
Definition C94_behaves (c : bool) (h : N) (p : pay) (r : pay + bytes) : Prop := False.
Definition C94_do (c : bool) (x : hop) (j : joint) : joint :=
  put_side c (advance x (match hstep (reg_run (C94_exports c)) (fun _ => true) c x (sd_ep (at_side c j)) with Ok e => e | _ => ep_init end) (at_side c j)) j.
(** A decoded stream request has its complete flag set. *)
Definition C94_arrives (f : frame) : frame :=
  match f with
  | FRequest r => if rq_type r =? 6 then FRequest {| rq_type := 6; rq_stream := rq_stream r; rq_metadata := rq_metadata r; rq_data := rq_data r; rq_follows := rq_follows r; rq_complete := true; rq_initial := rq_initial r |} else f
  | _ => f
  end.
Definition C94_get (c : bool) (n : nat) (j : joint) : joint := C94_do c (XFrame (C94_arrives (nth n (sd_out (at_side (negb c) j)) (FCancel {| cn_stream := 0 |})))) j.
Definition C94_put (f : frame) (j : joint) : joint := put_side false (write f (at_side false j)) j.
Definition C94_pay1 : pay := {| py_data := [5]; py_meta := [0; 0; 0; 1; 0; 0; 0; 0] |}.
Definition C94_pay2 : pay := {| py_data := [6]; py_meta := [0; 0; 0; 0; 0; 0; 0; 0] |}.
Definition C94_val (n : N) : pay := {| py_data := [n]; py_meta := [] |}.
Definition C94_1 := C94_do true (XCall RS C94_pay1 false) joint_init.
Definition C94_2 := C94_do true (XSubscribe 0) C94_1.
Definition C94_3 := C94_do true (XRequest 0 5) C94_2.
Definition C94_4 := C94_get false 0 C94_3.
Definition C94_5 := C94_do false (XJob 0) C94_4.
Definition C94_6 := C94_put (in_frame 1 (InNext (C94_val 41))) C94_5.
Definition C94_7 := C94_do true (XCall RC C94_pay2 true) C94_6.
Definition C94_8 := C94_do true (XSubscribe 1) C94_7.
Definition C94_9 := C94_do true (XRequest 1 3) C94_8.
Definition C94_10 := C94_get true 0 C94_9.
Definition C94_11 := C94_get false 1 C94_10.
Definition C94_12 := C94_do false (XJob 0) C94_11.
Definition C94_13 := C94_put (in_frame 3 (InNext (C94_val 51))) C94_12.
Definition C94_14 := C94_put (in_frame 1 (InNext (C94_val 42))) C94_13.
Definition C94_15 := C94_do false (XListen 1) C94_14.
Definition C94_16 := C94_do false (XCancel 1) C94_15.
Definition C94_17 := C94_put (in_frame 3 (InNext (C94_val 52))) C94_16.
Definition C94_18 := C94_put (in_frame 1 InComplete) C94_17.
Definition C94_19 := C94_get true 1 C94_18.
Definition C94_20 := C94_get true 2 C94_19.
Definition C94_21 := C94_get true 3 C94_20.
Definition C94_22 := C94_get true 4 C94_21.
Definition C94_23 := C94_get true 5 C94_22.
Lemma C94_op : forall c x j, (forall f, x <> XFrame f) ->
  hstep (reg_run (C94_exports c)) (fun _ => true) c x (sd_ep (at_side c j)) =
    Ok (match hstep (reg_run (C94_exports c)) (fun _ => true) c x (sd_ep (at_side c j)) with Ok e => e | _ => ep_init end) ->
  jruns C94_exports (fun _ _ => true) C94_behaves j -> jruns C94_exports (fun _ _ => true) C94_behaves (C94_do c x j).
Proof. intros c x j Hx H R. eapply jr_step; [exact R|]. unfold C94_do. apply JOp; auto. Qed.
Lemma C94_frame : forall c n j, let g := C94_arrives (nth n (sd_out (at_side (negb c) j)) (FCancel {| cn_stream := 0 |})) in
  hstep (reg_run (C94_exports c)) (fun _ => true) c (XFrame g) (sd_ep (at_side c j)) =
    Ok (match hstep (reg_run (C94_exports c)) (fun _ => true) c (XFrame g) (sd_ep (at_side c j)) with Ok e => e | _ => ep_init end) ->
  C64_writable (sd_out (at_side (negb c) j)) = true ->
  read_frames_all 9 [] [Chunk (firstn (List.length (concat (map (@concat N) (C64_writes (firstn (S n) (sd_out (at_side (negb c) j))))))) (concat (map (@concat N) (C64_writes (sd_out (at_side (negb c) j))))))] =
    Some (received (trace_of c j) ++ [g], ConnEof) ->
  jruns C94_exports (fun _ _ => true) C94_behaves j -> jruns C94_exports (fun _ _ => true) C94_behaves (C94_get c n j).
Proof.
  intros c n j g H W V R. eapply jr_step; [exact R|]. unfold C94_get, C94_do. apply JFrame; [|exact H].
  apply (C64_reads (List.length (concat (map (@concat N) (C64_writes (firstn (S n) (sd_out (at_side (negb c) j)))))))); [exact W|exact V].
Qed.
Lemma C94_emit : forall k h p f j, In (HInvoke k (frame_stream f) h p) (ep_trace (sd_ep (at_side false j))) -> k = RS \/ k = RC ->
  match f with FPayload _ | FError _ => True | _ => False end ->
  jruns C94_exports (fun _ _ => true) C94_behaves j -> jruns C94_exports (fun _ _ => true) C94_behaves (C94_put f j).
Proof. intros k h p f j H1 H2 H3 R. eapply jr_step; [exact R|]. unfold C94_put. eapply JEmit; eauto. Qed.
Lemma C94_runs : jruns C94_exports (fun _ _ => true) C94_behaves C94_23 /\ usable C94_23.
Proof.
  split.
  - unfold C94_23. apply C94_frame; [vm_compute; reflexivity..|].
    unfold C94_22. apply C94_frame; [vm_compute; reflexivity..|].
    unfold C94_21. apply C94_frame; [vm_compute; reflexivity..|].
    unfold C94_20. apply C94_frame; [vm_compute; reflexivity..|].
    unfold C94_19. apply C94_frame; [vm_compute; reflexivity..|].
    unfold C94_18. apply (C94_emit RS 21 C94_pay1); [vm_compute; tauto|now left|exact I|].
    unfold C94_17. apply (C94_emit RC 31 C94_pay2); [vm_compute; tauto|now right|exact I|].
    unfold C94_16. apply C94_op; [discriminate|vm_compute; reflexivity|].
    unfold C94_15. apply C94_op; [discriminate|vm_compute; reflexivity|].
    unfold C94_14. apply (C94_emit RS 21 C94_pay1); [vm_compute; tauto|now left|exact I|].
    unfold C94_13. apply (C94_emit RC 31 C94_pay2); [vm_compute; tauto|now right|exact I|].
    unfold C94_12. apply C94_op; [discriminate|vm_compute; reflexivity|].
    unfold C94_11. apply C94_frame; [vm_compute; reflexivity..|].
    unfold C94_10. apply C94_frame; [vm_compute; reflexivity..|].
    unfold C94_9. apply C94_op; [discriminate|vm_compute; reflexivity|].
    unfold C94_8. apply C94_op; [discriminate|vm_compute; reflexivity|].
    unfold C94_7. apply C94_op; [discriminate|vm_compute; reflexivity|].
    unfold C94_6. apply (C94_emit RS 21 C94_pay1); [vm_compute; tauto|now left|exact I|].
    unfold C94_5. apply C94_op; [discriminate|vm_compute; reflexivity|].
    unfold C94_4. apply C94_frame; [vm_compute; reflexivity..|].
    unfold C94_3. apply C94_op; [discriminate|vm_compute; reflexivity|].
    unfold C94_2. apply C94_op; [discriminate|vm_compute; reflexivity|].
    unfold C94_1. apply C94_op; [discriminate|vm_compute; reflexivity|]. constructor.
  - intros c. split; [|destruct c; vm_compute; reflexivity]. destruct c.
    + let l := eval vm_compute in (sd_out (at_side true C94_23)) in change (sd_out (at_side true C94_23)) with l. repeat constructor; cbn; lia.
    + let l := eval vm_compute in (sd_out (at_side false C94_23)) in change (sd_out (at_side false C94_23)) with l. repeat constructor; cbn; lia.
Qed.
(** The flux of the stream's handler, and the caller's subscription. *)
Definition C94_served : FluxModel.fconf pay bytes frame Empty_set unit :=
  FluxModel.frun false (fun s => [FluxModel.FCall s (FluxModel.KNext (C94_val 41)); FluxModel.FCall s (FluxModel.KNext (C94_val 42)); FluxModel.FCall s FluxModel.KComplete;
      FluxModel.FCall s (FluxModel.KNext (C94_val 43))]) (fun _ _ _ => None) (0 :: 0 :: repeat 0%nat 30)%nat
    (FluxModel.finit tt [[FluxModel.FSubscribe (emit 1)]]).
Definition C94_push (k : FluxModel.fcall pay bytes) : list (FluxModel.fact pay bytes (ProcProps.pobs pay bytes) (FluxModel.fpcode pay bytes)) :=
  [FluxModel.FObs (ProcProps.OPush k); FluxModel.FDo (FluxModel.FPCall k)].
Definition C94_called := ProcProps.processor (V := pay) (E := bytes) (fun _ => (None, None)) false
  [[FluxModel.FObs ProcProps.OSub; FluxModel.FSubscribe (FluxModel.FHandlers (Some (fun _ _ => [])) (Some (fun _ => [])) None None None false)]
    ++ C94_push (FluxModel.KNext (C94_val 41)) ++ C94_push (FluxModel.KNext (C94_val 42)) ++ C94_push FluxModel.KComplete] (repeat 0%nat 40).
Example C94_example :
  jruns C94_exports (fun _ _ => true) C94_behaves C94_23 /\ usable C94_23 /\
  In (HCalled 0 RS 1 C94_pay1 false) (trace_of true C94_23) /\ subscribed_first 0 (trace_of true C94_23) /\ subscribed_first 1 (trace_of true C94_23) /\
  List.length (received (trace_of true C94_23)) = List.length (sd_out (at_side false C94_23)) /\
  List.length (received (trace_of false C94_23)) = List.length (sd_out (at_side true C94_23)) /\ ep_jobs (sd_ep (at_side false C94_23)) = [] /\
  closed_last (on 1 (sd_out (at_side false C94_23))) /\ asks 0 (trace_of true C94_23) = [5%Z] /\
  invocations 1 (trace_of false C94_23) = [(RS, 21, C94_pay1)] /\
  FluxModel.fc_stack C94_served = [] /\ filter data_frame (on 1 (sd_out (at_side false C94_23))) = FluxProps.observed (FluxModel.fc_trace C94_served) /\
  got 0 (trace_of true C94_23) = [SNext (C94_val 41); SNext (C94_val 42); SComplete] /\
  got 0 (trace_of true C94_19) = [SNext (C94_val 41)] /\
  FluxModel.fc_stack C94_called = [] /\ ProcProps.to_sub 0 (ProcProps.routed 0 (FluxModel.fc_trace C94_called)) = map as_call (got 0 (trace_of true C94_23)) /\
  FluxFacts.delivered 0 (FluxModel.fc_trace C94_called) = [FluxModel.ONext (C94_val 41); FluxModel.ONext (C94_val 42); FluxModel.OComplete].
Proof.
  destruct C94_runs as [A B]. split; [exact A|]. split; [exact B|]. split; [vm_compute; tauto|].
  assert (S : forall o, subscribed_first o (trace_of true C94_23)).
  { intros o t1 n t2 E. vm_compute in E. clear A B.
    repeat (destruct t1 as [|x t1]; [discriminate E || (injection E as <- <- <-; cbn; tauto)|]; injection E as <- E; cbn [In]); try (destruct t1; discriminate). }
  split; [apply S|]. split; [apply S|]. vm_compute. repeat split; auto; discriminate.
Qed.
(** A channel is cut short by the cancellation of its input: the handler goes on
    sending, and the caller is told that the channel has completed. *)
Theorem C94_input_cancelled_refuted :
  ~ (forall exported sb behaves, (forall c, len (exported c) < 2 ^ 32) ->
     forall j, jruns exported sb behaves j -> usable j ->
     forall c o sid p input, In (HCalled o RC sid p input) (trace_of c j) -> subscribed_first o (trace_of c j) ->
       List.length (received (trace_of c j)) = List.length (sd_out (at_side (negb c) j)) ->
       closed_last (filter data_frame (on sid (sd_out (at_side (negb c) j)))) ->
       got o (trace_of c j) = flat_map carried (filter data_frame (on sid (sd_out (at_side (negb c) j))))).
Proof.
  intros H. destruct C94_example as (A & B & _ & _ & S & D & _).
  specialize (H C94_exports (fun _ _ => true) C94_behaves (fun c => ltac:(destruct c; reflexivity)) C94_23 A B true 1 3 C94_pay2 true ltac:(vm_compute; tauto) S D ltac:(vm_compute; repeat split; auto; discriminate)).
  apply (f_equal (existsb (fun x => match x with SComplete => true | _ => false end))) in H.
  assert (L1 : existsb (fun x => match x with SComplete => true | _ => false end) (got 1 (trace_of true C94_23)) = true) by (vm_compute; reflexivity).
  assert (L2 : existsb (fun x => match x with SComplete => true | _ => false end) (flat_map carried (filter data_frame (on 3 (sd_out (at_side (negb true) C94_23))))) = false)
    by (vm_compute; reflexivity).
  rewrite L1, L2 in H. discriminate H.
Qed.
Print Assumptions C94_nothing_invented.
Print Assumptions C94_in_order.
Print Assumptions C94_handler_invoked_once.
Print Assumptions C94_stream_end_to_end.
Print Assumptions C94_input_cancelled_refuted.
