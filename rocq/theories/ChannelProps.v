(** C95: the input of a channel call between two ends of a connection. *)
From Verif Require Import Base BaseFacts FramesModel FramesProofs FramesProps WasmModel InvokeModel InvokeProofs LookupModel TcpModel TcpProofs TcpProps
  HandlerModel HandlerFacts HandlerProps HandlerCallProps HandlerServeProps HandlerCrashProps JointModel JointFacts JointProps DemandProps StreamFacts StreamProps ChannelFacts ChannelPulls.

(** *** Specification.  What an event of the caller's input is for the handler. *)
Definition heard (x : inev) : list scall := match x with InNext p => [SNext p] | InComplete => [SComplete] | InError e => [SError e; SComplete] end.
(** The input ends once. *)
Fixpoint ends_once (l : list inev) : Prop :=
  match l with [] => True | x :: l' => match x with InNext _ => True | _ => l' = [] end /\ ends_once l' end.
(** The caller's input emits only once it has been asked to. *)
Definition driven (o : N) (t : list hevent) : Prop := forall t1 x t2, t = t1 ++ HFed o x :: t2 -> exists n, In (HDemand o n) t1.

Lemma rids_requests : forall sid t, cnt sid (rids t) = List.length (filter is_request (recvd sid t)).
Proof.
  intros sid t. induction t as [|x t IH]; [reflexivity|]. unfold rids, recvd in *. cbn [flat_map]. rewrite cnt_app, filter_app, app_length, IH. f_equal.
  destruct x; try reflexivity. destruct f as [|r| | | |]; cbn [frame_stream]; try (destruct (_ =? sid); reflexivity); try reflexivity.
  unfold cnt. cbn [count_occ]. destruct (N.eq_dec (rq_stream r) sid) as [->|E]; [rewrite N.eqb_refl; reflexivity|]. apply N.eqb_neq in E. rewrite E. reflexivity.
Qed.
Lemma sent_inputs : forall sid t, filter data_frame (on sid (sent_by t)) = sent input_frame sid t.
Proof.
  intros sid t. induction t as [|x t IH]; [reflexivity|]. unfold sent_by, sent, on in *. cbn [flat_map]. rewrite !filter_app, IH. f_equal.
  destruct x; try reflexivity. cbn [filter]. destruct (frame_stream f =? sid) eqn:E; [|rewrite andb_false_r; reflexivity]. rewrite andb_true_r. destruct f; reflexivity.
Qed.
Lemma heard_frames : forall sid l, flat_map carried (map (in_frame sid) l) = flat_map heard l.
Proof. intros sid l. induction l as [|x l IH]; [reflexivity|]. cbn [map flat_map]. rewrite IH. f_equal. destruct x as [p| |]; try reflexivity. now destruct p. Qed.
Lemma closed_inputs : forall sid l, ends_once l -> closed_last (map (in_frame sid) l).
Proof.
  intros sid l. induction l as [|x l IH]; [intros _; exact I|]. cbn [ends_once map closed_last]. intros [A B]. split; [|auto]. destruct x; cbn [in_frame closing pl_complete]; try discriminate; subst l; reflexivity.
Qed.
Lemma fed_nothing : forall o t, (forall n, ~ In (HDemand o n) t) -> driven o t -> fed o t = [].
Proof.
  intros o t N D. destruct (fed o t) as [|y l] eqn:E; [reflexivity|exfalso].
  assert (Y : In y (fed o t)) by (rewrite E; now left). unfold fed in Y. apply in_flat_map in Y. destruct Y as (x & X1 & X2). destruct x; try (destruct X2; fail).
  destruct (o0 =? o) eqn:Eo; [|destruct X2]. apply N.eqb_eq in Eo. subst o0. apply in_split in X1. destruct X1 as (t1 & t2 & X1). destruct (D _ _ _ X1) as (n & Hn).
  apply (N n). rewrite X1. apply in_app_iff. now left.
Qed.
Lemma feds_of_fed : forall o t, fed o t = [] -> feds o t = [].
Proof.
  intros o t. induction t as [|x t IH]; [reflexivity|]. unfold fed in *. cbn [flat_map]. intros H. apply app_eq_nil in H. destruct H as [H1 H2]. cbn [feds].
  destruct x; auto; [destruct (o0 =? o); auto|destruct (o0 =? o); auto].
Qed.
Lemma on_app : forall sid a b, on sid (a ++ b) = on sid a ++ on sid b.
Proof. intros. apply filter_app. Qed.

Lemma closed_last_tail : forall fs gs, closed_last (fs ++ gs) -> closed_last gs.
Proof. induction fs as [|f fs IH]; intros gs H; [exact H|]. cbn in H. apply IH. tauto. Qed.
Lemma subseq_before : forall A (a b c : list A), subseq a b -> subseq a (c ++ b).
Proof. intros A a b c H. induction c; [exact H|]. now apply sub_skip. Qed.

Definition rc_on (sid : N) (x : hevent) : bool := match x with HInvoke RC s _ _ => s =? sid | _ => false end.
Section C95.
Variable exported : bool -> list reg_call.
Variable subscribable : bool -> N -> bool.
Variable behaves : bool -> N -> pay -> pay + bytes -> Prop.
Hypothesis few : forall c, len (exported c) < 2 ^ 32.
Let ok := joint_ok exported subscribable behaves.
Lemma request_once : forall j, jruns exported subscribable behaves j -> usable j -> forall c o k sid p b, k = RS \/ k = RC -> In (HCalled o k sid p b) (trace_of c j) ->
  (cnt sid (rids (trace_of (negb c) j)) <= 1)%nat.
Proof.
  intros j R U c o k sid p b Hk Hc. pose proof (joint_inv exported subscribable behaves j R U) as J. rewrite rids_requests.
  exact (one_request_frame exported subscribable behaves few j R U c o k sid p b Hk Hc).
Qed.
(** A handler invoked now was not invoked before: the run has passed the moment of the invocation. *)
Lemma before_invoke : forall j, jruns exported subscribable behaves j -> usable j -> forall d sid h p t1 t2, trace_of d j = t1 ++ HInvoke RC sid h p :: t2 ->
  exists i, jruns exported subscribable behaves i /\ usable i /\ trace_of d i = t1 /\ exists u, trace_of (negb d) j = trace_of (negb d) i ++ u.
Proof.
  intros j H. induction H as [|j j' H IH St]; intros U d sid h p t1 t2 E; [destruct d; destruct t1; discriminate|].
  pose proof (usable_before exported subscribable behaves j j' St U) as U0. pose proof (joint_inv exported subscribable behaves j H U0) as J.
  destruct (step_trace exported subscribable behaves few j j' J St U (negb d)) as (w & W & _).
  assert (Old : forall t, trace_of d j = t1 ++ HInvoke RC sid h p :: t ->
    exists i, jruns exported subscribable behaves i /\ usable i /\ trace_of d i = t1 /\ exists u, trace_of (negb d) j' = trace_of (negb d) i ++ u).
  { intros t Et. destruct (IH U0 d sid h p t1 t Et) as (i & A & B & C & u & D). exists i. split; [exact A|]. split; [exact B|]. split; [exact C|]. exists (u ++ w). now rewrite W, D, app_assoc. }
  assert (Op : forall a x e', hstep (reg_run (exported a)) (subscribable a) a x (sd_ep (at_side a j)) = Ok e' -> usable (put_side a (advance x e' (at_side a j)) j) ->
    trace_of d (put_side a (advance x e' (at_side a j)) j) = t1 ++ HInvoke RC sid h p :: t2 -> (exists t, trace_of d j = t1 ++ HInvoke RC sid h p :: t) \/ trace_of d j = t1).
  { intros a x e' Hst Us Et. unfold trace_of in Et |- *. destruct (side_cases a d) as [->| ->]; [|rewrite at_put_other in Et; eauto]. rewrite at_put_same in Et. set (s := at_side a j) in *.
    destruct (jo_run _ _ _ j J a) as (R1 & R2 & R3). fold s in R1, R2, R3. destruct (Us a) as [_ U2]. rewrite at_put_same in U2. cbn [advance sd_ops sd_ep sd_out] in *.
    change (2 ^ 30) with 1073741824 in R2, U2.
    destruct (good_run (reg_run (exported a)) (subscribable a) a (sd_ops s) ep_init (sd_ep s) (good_init a) ltac:(cbn [ep_init ep_ids]; lia) R3 R1) as [Gd Ids].
    cbn [ep_init ep_ids] in Ids.
    assert (Vw : view (reg_run (exported a)) (subscribable a) a x (sd_ep s) e').
    { apply hstep_view; auto. intros Hx. rewrite calls_app, calls_cons, Hx in U2. lia. }
    destruct (view_grows _ _ _ _ _ _ Vw) as (ev & T & _). rewrite T in Et. destruct (DemandProps.split_at2 _ _ _ _ _ _ Et) as [(t & E1 & _)|(t & -> & E1)]; [eauto|right].
    destruct (view_invokes _ _ _ _ _ _ ev Gd Vw T) as [N|(sid' & h' & p' & n & E2 & _)]; [exfalso; apply (N sid h p); rewrite E1; apply in_app_iff; right; now left|].
    rewrite E1 in E2. destruct t as [|y t]; [now rewrite app_nil_r|exfalso]. cbn in E2. injection E2 as _ E2. destruct t as [|z t]; cbn in E2; [discriminate|]. injection E2 as _ E2. now destruct t. }
  assert (Fin : (exists t, trace_of d j = t1 ++ HInvoke RC sid h p :: t) \/ trace_of d j = t1).
  { destruct St as [a x j e' Hx Hst|a g j e' Hr Hst|a sid' h' p' r j Hi Hb|a k sid' h' p' f j Hi Hk Hs' Hf].
    - exact (Op a x e' Hst U E).
    - exact (Op a (XFrame g) e' Hst U E).
    - left. exists t2. rewrite <- E. unfold trace_of. destruct (side_cases a d) as [->| ->]; [now rewrite at_put_same|now rewrite at_put_other].
    - left. exists t2. rewrite <- E. unfold trace_of. destruct (side_cases a d) as [->| ->]; [now rewrite at_put_same|now rewrite at_put_other]. }
  destruct Fin as [(t & Et)|Et]; [exact (Old t Et)|]. exists j. split; [exact H|]. split; [exact U0|]. split; [exact Et|]. exists w. exact W.
Qed.
(** Demand for the input of a call shows that its handler was invoked. *)
Lemma asked_by_handler : forall j c o sid p b n, ok j -> In (HCalled o RC sid p b) (trace_of c j) -> In (HDemand o n) (trace_of c j) ->
  exists h q, In (HInvoke RC sid h q) (trace_of (negb c) j).
Proof.
  intros j c o sid p b n J Hc Hd. destruct (history_pull _ _ _ _ _ (jo_run _ _ _ j J c)) as [P G]. destruct (history_flux _ _ _ _ _ (jo_run _ _ _ j J c)) as [F _].
  destruct (fo_called c _ F o RC sid p b Hc) as (x & X1 & X2). destruct x as [r|s|]; cbn in X2; [destruct X2; discriminate| |destruct X2].
  destruct X2 as (_ & X2 & _). apply (f_equal rq_stream) in X2. cbn in X2.
  destruct (po_demand c _ P o n s (or_introl Hd) X1) as (r & R1 & R2). destruct (received_from exported subscribable behaves j c _ J R1) as (f & F1 & F2 & F3).
  destruct f as [| |r'| | |]; cbn in F2; try contradiction. cbn [frame_stream] in F3.
  destruct (jo_out _ _ _ j J _ _ F1) as [X|[(sid' & h & q & y & _ & _ & X)|(k & sid' & h & q & _ & _ & _ & [])]]; [|destruct y; discriminate].
  destruct (history_pull _ _ _ _ _ (jo_run _ _ _ j J (negb c))) as [P' _].
  assert (O : N.odd (rn_stream r') = negb (negb c)) by (rewrite negb_involutive, <- F3, R2, X2; exact (call_parity _ _ _ j c o RC sid p b J Hc)).
  destruct (po_pulled (negb c) _ P' r' X O) as (h & q & Hi). exists h, q. rewrite <- F3, R2, X2 in Hi. exact Hi.
Qed.
(** So a demand-driven input sends nothing before the handler is invoked. *)
Lemma nothing_early : forall j, jruns exported subscribable behaves j -> usable j -> forall c o sid p b, In (HCalled o RC sid p b) (trace_of c j) ->
  driven o (trace_of c j) -> (forall x, ~ In (FCancel x) (on sid (sd_out (at_side c j)))) ->
  forall t1 h q t2, trace_of (negb c) j = t1 ++ HInvoke RC sid h q :: t2 -> flat_map carried (recvd sid t1) = [].
Proof.
  intros j R U c o sid p b Hc Dr Nc t1 h q t2 E. pose proof (joint_inv exported subscribable behaves j R U) as J.
  destruct (before_invoke j R U (negb c) sid h q t1 t2 E) as (i & Ri & Ui & Ti & u & Tu). rewrite negb_involutive in Tu.
  pose proof (joint_inv exported subscribable behaves i Ri Ui) as Ji. pose proof (call_parity _ _ _ j c o RC sid p b J Hc) as Par.
  rewrite <- Ti. destruct (recvd_on exported subscribable behaves i (negb c) sid Ji) as (n & Hn). rewrite negb_involutive in Hn. rewrite (carried_same _ _ Hn).
  assert (Z : flat_map carried (on sid (sd_out (at_side c i))) = []).
  { rewrite (own_out exported subscribable behaves few i Ri Ui c sid Par). rewrite carried_data.
    2:{ intros x Hx. apply (Nc x). rewrite (own_out exported subscribable behaves few j R U c sid Par), Tu, sent_by_app, on_app, in_app_iff. now left. }
    rewrite sent_inputs. rewrite Tu in Hc. apply in_app_iff in Hc. destruct Hc as [Hc|Hc].
    - destruct (C59_input_on_the_wire _ _ _ _ _ _ _ _ _ _ (jo_run _ _ _ i Ji c) (or_intror eq_refl) Hc) as [S _]. unfold trace_of in *. rewrite S.
      destruct b; [|reflexivity]. rewrite (feds_of_fed o); [reflexivity|]. apply fed_nothing.
      + intros m Hm. destruct (asked_by_handler i c o sid p true m Ji Hc Hm) as (h' & q' & Hi). unfold trace_of in Hi. rewrite Ti in Hi.
        assert (Len : (2 <= List.length (filter (rc_on sid) (ep_trace (sd_ep (at_side (negb c) j)))))%nat).
        { rewrite E, filter_app, app_length. cbn [filter rc_on]. rewrite N.eqb_refl. cbn [List.length]. apply in_split in Hi. destruct Hi as (a1 & a2 & ->).
          rewrite filter_app, app_length. cbn [filter rc_on]. rewrite N.eqb_refl. cbn [List.length]. lia. }
        assert (Hc' : In (HCalled o RC sid p true) (trace_of c j)) by (unfold trace_of; rewrite Tu; apply in_app_iff; now left).
        destruct (C94_handler_invoked_once exported subscribable behaves few j R U c o RC sid p true (or_intror eq_refl) Hc') as [One _].
        assert (Le : (List.length (filter (rc_on sid) (trace_of (negb c) j)) <= List.length (invocations sid (trace_of (negb c) j)))%nat).
        { generalize (trace_of (negb c) j) as t. clear. induction t as [|x t IH]; [apply Nat.le_refl|]. unfold invocations in *. cbn [flat_map filter rc_on]. rewrite app_length.
          destruct x; cbn [List.length rc_on]; try lia. destruct k; cbn [rc_on]; destruct (sid0 =? sid); cbn [List.length]; lia. }
        unfold trace_of in *. destruct One as [O1|(y1 & y2 & _ & O1)]; rewrite O1 in Le; cbn in Le; lia.
      + intros a1 y a2 Ea. apply (Dr a1 y (a2 ++ u)). rewrite Tu, Ea, <- app_assoc. reflexivity.
    - assert (Y : forall f, In (HSent f) (trace_of c i) -> demand_frame f || input_frame f = true -> frame_stream f <> sid).
      { intros f Hf. apply in_split in Hc. destruct Hc as (u1 & u2 & Eu). destruct (history_pull _ _ _ _ _ (jo_run _ _ _ j J c)) as [P _].
        apply (po_fresh c _ P (trace_of c i ++ u1) o RC sid p b u2); [|apply in_app_iff; now left]. unfold trace_of in *. rewrite Tu, Eu, <- app_assoc. reflexivity. }
      destruct (sent input_frame sid (trace_of c i)) as [|f fs] eqn:Ef; [reflexivity|exfalso].
      assert (X : In f (sent input_frame sid (trace_of c i))) by (rewrite Ef; now left). unfold sent in X. apply in_flat_map in X. destruct X as (x & X1 & X2). destruct x; try (destruct X2; fail).
      destruct (input_frame f0) eqn:Ei; cbn [andb] in X2; [|destruct X2]. destruct (frame_stream f0 =? sid) eqn:Es; [|destruct X2]. apply N.eqb_eq in Es.
      apply (Y f0 X1); [|exact Es]. rewrite Ei. apply orb_true_r. }
  rewrite <- (firstn_skipn n (on sid (sd_out (at_side c i)))), flat_map_app in Z. apply app_eq_nil in Z. tauto.
Qed.
(** What the served stream is given. *)
Lemma input_served : forall j, jruns exported subscribable behaves j -> usable j -> forall c o sid p b, In (HCalled o RC sid p b) (trace_of c j) ->
  forall t1 h q t2, trace_of (negb c) j = t1 ++ HInvoke RC sid h q :: t2 ->
  exists o' n t3, t2 = HDemand o' n :: t3 /\ got o' (trace_of (negb c) j) = got o' t3 /\ recvd sid t3 = recvd sid t2 /\ recvd sid (trace_of (negb c) j) = recvd sid t1 ++ recvd sid t3 /\
    served_at sid (sd_ep (at_side (negb c) j)) o' t3.
Proof.
  intros j R U c o sid p b Hc t1 h q t2 E. pose proof (joint_inv exported subscribable behaves j R U) as J. unfold trace_of in E.
  destruct (history_channel _ _ _ _ _ (jo_run _ _ _ j J (negb c))) as [Ch _].
  destruct (ch_served (negb c) _ Ch t1 sid h q t2 E (request_once j R U c o RC sid p b (or_intror eq_refl) Hc)) as (o' & n & t3 & -> & G & S).
  exists o', n, t3. split; [reflexivity|]. unfold trace_of. rewrite E, got_app, recvd_app, G. auto.
Qed.
End C95.

(** ** C95 *)
(** A handler is invoked on a channel with a stream of its own for the input;
    all that reaches this stream was written by the caller's end on the stream
    of the call, in that order and no more often. *)
Theorem C95_nothing_invented :
  forall exported sb behaves, (forall c, len (exported c) < 2 ^ 32) ->
  forall j, jruns exported sb behaves j -> usable j ->
  forall c o sid p input, In (HCalled o RC sid p input) (trace_of c j) ->
  forall t1 h q t2, trace_of (negb c) j = t1 ++ HInvoke RC sid h q :: t2 ->
    exists o' n t3, t2 = HDemand o' n :: t3 /\ subseq (got o' (trace_of (negb c) j)) (flat_map carried (on sid (sd_out (at_side c j)))).
Proof.
  intros exported sb behaves L j R U c o sid p input Hc t1 h q t2 E. pose proof (joint_inv exported sb behaves j R U) as J.
  destruct (input_served exported sb behaves L j R U c o sid p input Hc t1 h q t2 E) as (o' & n & t3 & -> & G & _ & Rv & _ & S & _).
  exists o', n, t3. split; [reflexivity|]. rewrite G. destruct (recvd_on exported sb behaves j (negb c) sid J) as (m & Hm). rewrite negb_involutive, Rv in Hm.
  pose proof (carried_same _ _ Hm) as Z. rewrite <- (firstn_skipn m (on sid (sd_out (at_side c j)))), flat_map_app, <- Z, flat_map_app. rewrite <- carried_all in S.
  apply subseq_more. now apply subseq_before.
Qed.
(** If nothing of the input arrives before the invocation, and the caller's end
    writes no more input after closing the stream: at every moment the handler's
    input was given a beginning of what was written, and all of it when
    everything has arrived. *)
Theorem C95_in_order :
  forall exported sb behaves, (forall c, len (exported c) < 2 ^ 32) ->
  forall j, jruns exported sb behaves j -> usable j ->
  forall c o sid p input, In (HCalled o RC sid p input) (trace_of c j) ->
  forall t1 h q t2, trace_of (negb c) j = t1 ++ HInvoke RC sid h q :: t2 ->
    let written := on sid (sd_out (at_side c j)) in
    flat_map carried (recvd sid t1) = [] -> closed_last written ->
    exists o' n t3, t2 = HDemand o' n :: t3 /\
      (exists m, got o' (trace_of (negb c) j) = flat_map carried (firstn m written)) /\
      (List.length (received (trace_of (negb c) j)) = List.length (sd_out (at_side c j)) -> got o' (trace_of (negb c) j) = flat_map carried written).
Proof.
  intros exported sb behaves L j R U c o sid p input Hc t1 h q t2 E written Ea Cl. pose proof (joint_inv exported sb behaves j R U) as J.
  destruct (input_served exported sb behaves L j R U c o sid p input Hc t1 h q t2 E) as (o' & n & t3 & -> & G & _ & Rv & _ & _ & _ & S).
  exists o', n, t3. split; [reflexivity|]. rewrite G.
  assert (K : forall m, Forall2 frame_received (firstn m written) (recvd sid (trace_of (negb c) j)) -> got o' t3 = flat_map carried (firstn m written)).
  { intros m Hm. pose proof (closed_last_received _ _ Hm (closed_last_firstn m _ Cl)) as X. rewrite Rv in X.
    rewrite <- (carried_same _ _ Hm), Rv, flat_map_app, Ea. cbn [app]. rewrite carried_all. apply S. exact (closed_last_tail _ _ X). }
  split.
  - destruct (recvd_on exported sb behaves j (negb c) sid J) as (m & Hm). rewrite negb_involutive in Hm. exists m. now apply K.
  - intros D. assert (D' : List.length (received (trace_of (negb c) j)) = List.length (sd_out (at_side (negb (negb c)) j))) by (rewrite negb_involutive; exact D).
    pose proof (recvd_all exported sb behaves j (negb c) sid J D') as Hm. rewrite negb_involutive in Hm. fold written in Hm.
    rewrite <- (firstn_all written) in Hm. rewrite (K _ Hm). now rewrite firstn_all.
Qed.
(** If the caller's input waits for demand, ends once, and the call is not
    cancelled: the handler's input is given a beginning of what the caller's
    input emitted since the call was first requested from, and all of it when everything has
    arrived. *)
Theorem C95_input_end_to_end :
  forall exported sb behaves, (forall c, len (exported c) < 2 ^ 32) ->
  forall j, jruns exported sb behaves j -> usable j ->
  forall c o sid p, In (HCalled o RC sid p true) (trace_of c j) ->
  driven o (trace_of c j) -> ends_once (feds o (trace_of c j)) -> (forall x, ~ In (FCancel x) (on sid (sd_out (at_side c j)))) ->
  forall t1 h q t2, trace_of (negb c) j = t1 ++ HInvoke RC sid h q :: t2 ->
    exists o' n t3, t2 = HDemand o' n :: t3 /\
      (exists m, got o' (trace_of (negb c) j) = flat_map heard (firstn m (feds o (trace_of c j)))) /\
      (List.length (received (trace_of (negb c) j)) = List.length (sd_out (at_side c j)) -> got o' (trace_of (negb c) j) = flat_map heard (feds o (trace_of c j))).
Proof.
  intros exported sb behaves L j R U c o sid p Hc Dr En Nc t1 h q t2 E. pose proof (joint_inv exported sb behaves j R U) as J.
  pose proof (nothing_early exported sb behaves L j R U c o sid p true Hc Dr Nc t1 h q t2 E) as Ea.
  destruct (C59_input_on_the_wire _ _ _ _ _ _ _ _ _ _ (jo_run _ _ _ j J c) (or_intror eq_refl) Hc) as [S _]. cbv iota in S.
  fold (trace_of c j) in S.
  assert (W : filter data_frame (on sid (sd_out (at_side c j))) = map (in_frame sid) (feds o (trace_of c j))).
  { rewrite (own_out exported sb behaves L j R U c sid (call_parity _ _ _ j c o RC sid p true J Hc)), sent_inputs. exact S. }
  assert (Cl : closed_last (on sid (sd_out (at_side c j)))) by (apply closed_data; [exact Nc|]; rewrite W; now apply closed_inputs).
  destruct (C95_in_order exported sb behaves L j R U c o sid p true Hc t1 h q t2 E Ea Cl) as (o' & n & t3 & E3 & (m & A) & B).
  exists o', n, t3. split; [exact E3|]. split.
  - rewrite carried_data in A by (intros x Hx; apply firstn_in in Hx; exact (Nc x Hx)).
    destruct (filter_firstn _ data_frame m (on sid (sd_out (at_side c j)))) as (m' & Hm). rewrite Hm, W, firstn_map, heard_frames in A. eauto.
  - intros D. rewrite (B D), carried_data, W by exact Nc. apply heard_frames.
Qed.

(** *** A run: the client opens a channel, the handler asks for two values of the
    input, the input emits two and completes. *)
Definition C95_1 := C94_do true (XCall RC C94_pay2 true) joint_init.
Definition C95_2 := C94_do true (XSubscribe 0) C95_1.
Definition C95_3 := C94_do true (XRequest 0 3) C95_2.
Definition C95_4 := C94_get false 0 C95_3.
Definition C95_5 := C94_do false (XJob 0) C95_4.
Definition C95_6 := C94_do false (XListen 0) C95_5.
Definition C95_7 := C94_do false (XRequest 0 2) C95_6.
Definition C95_8 := C94_get true 0 C95_7.
Definition C95_9 := C94_do true (XJob 0) C95_8.
Definition C95_10 := C94_do true (XIn 0 (InNext (C94_val 61))) C95_9.
Definition C95_11 := C94_do true (XIn 0 (InNext (C94_val 62))) C95_10.
Definition C95_12 := C94_get false 1 C95_11.
Definition C95_13 := C94_do true (XIn 0 InComplete) C95_12.
Definition C95_14 := C94_get false 2 C95_13.
Definition C95_15 := C94_get false 3 C95_14.
(** The same with the call cancelled instead of the input completing. *)
Definition C95_c13 := C94_do true (XCancel 0) C95_12.
Definition C95_c14 := C94_get false 2 C95_c13.
Definition C95_c15 := C94_get false 3 C95_c14.
(** The input emits as soon as it is subscribed to. *)
Definition C95_e4 := C94_do true (XIn 0 (InNext (C94_val 61))) C95_3.
Definition C95_e5 := C94_get false 0 C95_e4.
Definition C95_e6 := C94_get false 1 C95_e5.
Definition C95_e7 := C94_do false (XJob 0) C95_e6.
Definition C95_run (j : joint) : Prop := jruns C94_exports (fun _ _ => true) C94_behaves j.
Lemma C95_runs3 : C95_run C95_3.
Proof.
  unfold C95_run, C95_3. apply C94_op; [discriminate|vm_compute; reflexivity|].
  unfold C95_2. apply C94_op; [discriminate|vm_compute; reflexivity|].
  unfold C95_1. apply C94_op; [discriminate|vm_compute; reflexivity|]. constructor.
Qed.
Lemma C95_runs12 : C95_run C95_12.
Proof.
  unfold C95_run, C95_12. apply C94_frame; [vm_compute; reflexivity..|].
  unfold C95_11. apply C94_op; [discriminate|vm_compute; reflexivity|].
  unfold C95_10. apply C94_op; [discriminate|vm_compute; reflexivity|].
  unfold C95_9. apply C94_op; [discriminate|vm_compute; reflexivity|].
  unfold C95_8. apply C94_frame; [vm_compute; reflexivity..|].
  unfold C95_7. apply C94_op; [discriminate|vm_compute; reflexivity|].
  unfold C95_6. apply C94_op; [discriminate|vm_compute; reflexivity|].
  unfold C95_5. apply C94_op; [discriminate|vm_compute; reflexivity|].
  unfold C95_4. apply C94_frame; [vm_compute; reflexivity..|]. exact C95_runs3.
Qed.
Lemma C95_runs15 : C95_run C95_15.
Proof.
  unfold C95_run, C95_15. apply C94_frame; [vm_compute; reflexivity..|].
  unfold C95_14. apply C94_frame; [vm_compute; reflexivity..|].
  unfold C95_13. apply C94_op; [discriminate|vm_compute; reflexivity|]. exact C95_runs12.
Qed.
Lemma C95_runs_cancel : C95_run C95_c15.
Proof.
  unfold C95_run, C95_c15. apply C94_frame; [vm_compute; reflexivity..|].
  unfold C95_c14. apply C94_frame; [vm_compute; reflexivity..|].
  unfold C95_c13. apply C94_op; [discriminate|vm_compute; reflexivity|]. exact C95_runs12.
Qed.
Lemma C95_runs_early : C95_run C95_e7.
Proof.
  unfold C95_run, C95_e7. apply C94_op; [discriminate|vm_compute; reflexivity|].
  unfold C95_e6. apply C94_frame; [vm_compute; reflexivity..|].
  unfold C95_e5. apply C94_frame; [vm_compute; reflexivity..|].
  unfold C95_e4. apply C94_op; [discriminate|vm_compute; reflexivity|]. exact C95_runs3.
Qed.
Ltac C95_small j := let c := fresh in intros c; split; [|destruct c; vm_compute; reflexivity]; destruct c;
  [let l := eval vm_compute in (sd_out (at_side true j)) in change (sd_out (at_side true j)) with l; repeat constructor; cbn; lia
  |let l := eval vm_compute in (sd_out (at_side false j)) in change (sd_out (at_side false j)) with l; repeat constructor; cbn; lia].
Lemma C95_usable : usable C95_15. Proof. C95_small C95_15. Qed.
Lemma C95_usable_cancel : usable C95_c15. Proof. C95_small C95_c15. Qed.
Lemma C95_usable_early : usable C95_e7. Proof. C95_small C95_e7. Qed.
Definition C95_before : list hevent := Eval vm_compute in firstn 1 (trace_of false C95_15).
Definition C95_since : list hevent := Eval vm_compute in skipn 2 (trace_of false C95_15).
Lemma C95_driven : driven 0 (trace_of true C95_15).
Proof.
  assert (E : trace_of true C95_15 = ltac:(let t := eval vm_compute in (trace_of true C95_15) in exact t)) by (vm_compute; reflexivity). rewrite E. clear E.
  intros t1 x t2 E.
  repeat (destruct t1 as [|y t1]; [discriminate E || (exists 2%Z; cbn; tauto)|]; injection E as <- E; cbn [In]); try (destruct t1; discriminate E); exists 2%Z; cbn; tauto.
Qed.
Example C95_example :
  C95_run C95_15 /\ usable C95_15 /\ In (HCalled 0 RC 1 C94_pay2 true) (trace_of true C95_15) /\ driven 0 (trace_of true C95_15) /\
  ends_once (feds 0 (trace_of true C95_15)) /\ (forall x, ~ In (FCancel x) (on 1 (sd_out (at_side true C95_15)))) /\
  trace_of false C95_15 = C95_before ++ HInvoke RC 1 31 C94_pay2 :: C95_since /\ flat_map carried (recvd 1 C95_before) = [] /\ closed_last (on 1 (sd_out (at_side true C95_15))) /\
  List.length (received (trace_of false C95_15)) = List.length (sd_out (at_side true C95_15)) /\
  feds 0 (trace_of true C95_15) = [InNext (C94_val 61); InNext (C94_val 62); InComplete] /\
  got 0 (trace_of false C95_15) = [SNext (C94_val 61); SNext (C94_val 62); SComplete] /\ got 0 (trace_of false C95_12) = [SNext (C94_val 61)].
Proof.
  split; [exact C95_runs15|]. split; [exact C95_usable|]. split; [vm_compute; tauto|]. split; [exact C95_driven|]. split; [vm_compute; tauto|].
  split; [intros x; vm_compute; intuition discriminate|]. vm_compute. repeat split; auto; discriminate.
Qed.
(** An input that does not wait for demand loses what arrives before the handler
    runs. *)
Theorem C95_early_input_lost_refuted :
  ~ (forall exported sb behaves, (forall c, len (exported c) < 2 ^ 32) ->
     forall j, jruns exported sb behaves j -> usable j ->
     forall c o sid p, In (HCalled o RC sid p true) (trace_of c j) ->
     ends_once (feds o (trace_of c j)) -> (forall x, ~ In (FCancel x) (on sid (sd_out (at_side c j)))) ->
     forall t1 h q o' n t3, trace_of (negb c) j = t1 ++ HInvoke RC sid h q :: HDemand o' n :: t3 ->
       List.length (received (trace_of (negb c) j)) = List.length (sd_out (at_side c j)) ->
       got o' (trace_of (negb c) j) = flat_map heard (feds o (trace_of c j))).
Proof.
  intros H. assert (E : trace_of (negb true) C95_e7 = firstn 3 (trace_of false C95_e7) ++ HInvoke RC 1 31 C94_pay2 :: HDemand 0 3 :: []) by (vm_compute; reflexivity).
  specialize (H C94_exports (fun _ _ => true) C94_behaves (fun c => ltac:(destruct c; reflexivity)) C95_e7 C95_runs_early C95_usable_early true 0 1 C94_pay2 ltac:(vm_compute; tauto)
    ltac:(vm_compute; tauto) ltac:(intros x; vm_compute; intuition discriminate) _ _ _ _ _ _ E ltac:(vm_compute; reflexivity)).
  assert (L : got 0 (trace_of (negb true) C95_e7) = []) by (vm_compute; reflexivity).
  assert (L2 : flat_map heard (feds 0 (trace_of true C95_e7)) = [SNext (C94_val 61)]) by (vm_compute; reflexivity). rewrite L, L2 in H. discriminate H.
Qed.
(** A cancelled call completes the handler's input. *)
Theorem C95_cancel_completes_refuted :
  ~ (forall exported sb behaves, (forall c, len (exported c) < 2 ^ 32) ->
     forall j, jruns exported sb behaves j -> usable j ->
     forall c o sid p, In (HCalled o RC sid p true) (trace_of c j) -> driven o (trace_of c j) -> (forall x, In x (feds o (trace_of c j)) -> exists v, x = InNext v) ->
     forall t1 h q o' n t3, trace_of (negb c) j = t1 ++ HInvoke RC sid h q :: HDemand o' n :: t3 ->
       ~ In SComplete (got o' (trace_of (negb c) j))).
Proof.
  intros H. assert (E : trace_of (negb true) C95_c15 = C95_before ++ HInvoke RC 1 31 C94_pay2 :: HDemand 0 3 :: skipn 3 (trace_of false C95_c15)) by (vm_compute; reflexivity).
  assert (D : driven 0 (trace_of true C95_c15)).
  { assert (E0 : trace_of true C95_c15 = ltac:(let t := eval vm_compute in (trace_of true C95_c15) in exact t)) by (vm_compute; reflexivity). rewrite E0. clear E0 H E.
    intros t1 x t2 E.
    repeat (destruct t1 as [|y t1]; [discriminate E || (exists 2%Z; cbn; tauto)|]; injection E as <- E; cbn [In]); try (destruct t1; discriminate E); exists 2%Z; cbn; tauto. }
  assert (F : forall x, In x (feds 0 (trace_of true C95_c15)) -> exists v, x = InNext v).
  { assert (E0 : feds 0 (trace_of true C95_c15) = [InNext (C94_val 61); InNext (C94_val 62)]) by (vm_compute; reflexivity). rewrite E0. intros x [<-|[<-|[]]]; eauto. }
  apply (H C94_exports (fun _ _ => true) C94_behaves (fun c => ltac:(destruct c; reflexivity)) C95_c15 C95_runs_cancel C95_usable_cancel true 0 1 C94_pay2 ltac:(vm_compute; tauto) D
    F _ _ _ _ _ _ E). vm_compute. tauto.
Qed.
Print Assumptions C95_nothing_invented.
Print Assumptions C95_in_order.
Print Assumptions C95_input_end_to_end.
Print Assumptions C95_early_input_lost_refuted.
Print Assumptions C95_cancel_completes_refuted.
