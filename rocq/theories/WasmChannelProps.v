(** C107: the input of a channel call between a host and a guest. *)
From Verif Require Import Base BaseFacts FramesModel FramesProofs FramesProps WasmModel WasmProofs WasmProps TcpModel TcpProofs TcpProps InvokeModel InvokeProofs LookupModel
  HandlerModel HandlerFacts HandlerProps HandlerCallProps HandlerServeProps HandlerCrashProps JointModel JointFacts JointProps DemandProps StreamFacts StreamProps ChannelFacts ChannelPulls ChannelProps
  WasmEndModel WasmEndFacts WasmEndProps WasmCallFacts WasmCallProps WasmJointModel WasmJointFacts WasmJointProps WasmStreamProps.
From Coq Require Import Permutation.

(** *** One end *)
(** Steps that serve a request. *)
Lemma calm_channel : forall c e e' ev, good c e -> channel_ok c e -> calm c e e' ev ->
  (forall s, (cnt s (opened e') <= cnt s (opened e) + cnt s (rids ev))%nat) -> (forall i o, registered i o e -> registered i o e') ->
  ((forall sid h p, ~ In (HInvoke RC sid h p) ev) \/
   exists pre sid h p n, ev = pre ++ [HInvoke RC sid h p; HDemand (len (ep_objs e)) n] /\ (forall sid h p, ~ In (HInvoke RC sid h p) pre) /\
     ep_obj (len (ep_objs e)) e' = Some (OReq RC sid true false) /\ registered sid (len (ep_objs e)) e') ->
  channel_ok c e'.
Proof.
  intros c e e' ev G [M C S] K Hop Hreg Inv. pose proof (ca_trace _ _ _ _ K) as T. constructor; [exact (calm_mono c e e' ev G M K)| |].
  - intros s. rewrite T, rids_app, cnt_app. specialize (C s). specialize (Hop s). lia.
  - intros t1 sid h p t2 E One. rewrite T in E. rewrite T, rids_app, cnt_app in One. destruct (DemandProps.split_at2 _ _ _ _ _ _ E) as [(t & E1 & ->)|(t & -> & E1)].
    + destruct (S t1 sid h p t E1 ltac:(lia)) as (o & n & t3 & -> & G1 & (b & Ho) & A1 & A2 & A3). exists o, n, (t3 ++ ev). split; [reflexivity|]. split; [exact G1|].
      destruct (unseen_facts o ev (calm_unseen c ev o (ca_ev _ _ _ _ K))) as [_ U]. destruct (calm_neutral c ev sid (ca_ev _ _ _ _ K)) as (_ & N2 & N3).
      split; [exists b; exact (calm_old c e e' ev o _ K Ho)|]. rewrite got_app, U, app_nil_r, recvd_app, flat_map_app, N2, app_nil_r. split; [exact A1|]. split.
      * rewrite Forall_app. intros [F1 _]. apply Hreg. now apply A2.
      * intros H. apply A3. now apply closed_last_app in H.
    + destruct Inv as [N|(pre & sid' & h' & p' & n & -> & Np & Ho & R)]; [exfalso; apply (N sid h p); rewrite E1; apply in_app_iff; right; now left|].
      destruct (DemandProps.split_at2 _ _ _ _ _ _ E1) as [(u & E2 & _)|(u & -> & E2)]; [exfalso; apply (Np sid h p); rewrite E2; apply in_app_iff; right; now left|].
      assert (u = [] /\ sid = sid' /\ t2 = [HDemand (len (ep_objs e)) n]) as (-> & -> & ->).
      { destruct u as [|y u]; cbn in E2; [injection E2 as <- _ _ <-; auto|]. injection E2 as _ E2. destruct u as [|z u]; cbn in E2; [discriminate|]. injection E2 as _ E2. now destruct u. }
      exists (len (ep_objs e)), n, []. rewrite app_nil_r. split; [reflexivity|]. split.
      * rewrite got_app, (proj2 (unseen_facts _ _ (mo_new c e M _ (N.le_refl _)))). pose proof (ca_ev _ _ _ _ K) as Fe. apply Forall_app in Fe. exact (proj2 (unseen_facts _ _ (calm_unseen c pre _ (proj1 Fe)))).
      * split; [eauto|]. split; [apply sub_nil|]. split; [auto|reflexivity].
Qed.
Lemma channel_init : forall c, channel_ok c ep_init.
Proof. intros c. constructor; [apply mono_ok_init|intros s; apply Nat.le_refl|]. intros t1 sid h p t2 X. destruct t1; discriminate X. Qed.
Lemma emit_channel : forall c e ev, good c e -> channel_ok c e -> calm c e (ep_emit ev e) ev -> (forall sid h p, ~ In (HInvoke RC sid h p) ev) -> channel_ok c (ep_emit ev e).
Proof. intros c e ev G C K N. apply (calm_channel c e _ ev G C K); [intros s; change (opened (ep_emit ev e)) with (opened e); lia|auto|auto]. Qed.
Lemma host_channel : forall sb l e, host_history sb l e -> channel_ok false e /\ good false e.
Proof.
  intros sb l e (H & C & P). apply (host_inv sb (fun _ => True) (channel_ok false)) with (l := l); auto; [apply channel_init| | | |now apply Forall_forall|lia].
  - intros x e0 e1 G G' S _ _ H1 H2 V. exact (channel_view _ _ _ _ _ _ G G' S H1 H2 V).
  - intros f e0 G S Hf. apply emit_channel; auto; [now apply calm_ignored|]. intros ? ? ? [X|[]]; discriminate.
  - intros i k r im e0 e1 _ G G' S Hj Ho E. pose proof (calm_host_request _ _ _ _ _ _ _ G Ho E) as K. pose proof (host_request_eq _ _ _ _ _ _ E) as Q.
    change (len (ep_objs (drop_job i e0))) with (len (ep_objs e0)) in Q. pose proof (fun s => cnt_perm s _ _ (opened_drop i e0 _ Hj)) as Pd. cbn [jid] in Pd.
    assert (Gn : forall k', good false (ep_new (OReq k' (rq_stream r) true false) (drop_job i e0))).
    { intros k'. apply good_new; [now apply good_drop|discriminate|]. intros k0 sid a0 b0 X. injection X as _ <- _ _. exact Ho. }
    apply (calm_channel false e0 e1 _ G S K).
    + intros s. specialize (Pd s). rewrite cnt_app in Pd. rewrite Q. change (opened (ep_emit ?l ?x)) with (opened x).
      destruct (host_accepts im k r); [|lia]. destruct k; cbn [host_opens]; try lia; [|change (opened (register ?a ?b ?x)) with (opened x)]; rewrite (cnt_perm s _ _ (opened_new _ _)), cnt_app; cbn [oid]; lia.
    + intros i' o R. rewrite Q. change (registered i' o (ep_emit ?l ?x)) with (registered i' o x). destruct (host_accepts im k r); [|exact R]. destruct k; try exact R.
      cbn [host_opens]. apply (registered_register false _ _ _ _ _ (Gn RC)). now left.
    + unfold host_answer, host_accepts in *. destruct (len (rq_metadata r) <? 8); [left; intros ? ? ? [X|[]]; discriminate|].
      destruct (im k _) as [h|]; [|left; intros ? ? ? [X|[]]; discriminate].
      destruct k; [left; intros ? ? ? [X|[]]; discriminate|left; intros ? ? ? [X|[]]; discriminate|left; intros ? ? ? [X|[X|[]]]; discriminate|right].
      cbn [negb andb host_opens] in Q. exists [], (rq_stream r), h, {| py_data := rq_data r; py_meta := rq_metadata r |}, (Z.of_N (rq_initial r)). split; [reflexivity|]. split; [intros ? ? ? []|]. rewrite Q.
      split; [exact (obj_new_new (OReq RC (rq_stream r) true false) (drop_job i e0))|].
      change (registered (rq_stream r) (len (ep_objs e0)) (register (rq_stream r) (len (ep_objs e0)) (ep_new (OReq RC (rq_stream r) true false) (drop_job i e0)))).
      apply (registered_register false _ _ _ _ _ (Gn RC)). now right.
Qed.
Lemma guest_channel : forall reg sb l e, guest_history reg sb l e -> channel_ok true e /\ good true e.
Proof.
  intros reg sb l e (H & C & P). apply (guest_inv reg sb (channel_ok true)) with (l := l); auto; [apply channel_init| | | | | |lia].
  - intros x e0 e1 G G' S _ _ H1 H2 V. exact (channel_view _ _ _ _ _ _ G G' S H1 H2 V).
  - intros f e0 G S Hf. apply emit_channel; auto; [now apply calm_ignored|]. intros ? ? ? [X|[]]; discriminate.
  - intros k r e0 e1 G G' S Hk Hf Ho E. pose proof (calm_guest_request _ _ _ _ _ _ G Ho E) as K. pose proof (handle_request_eq _ _ _ _ _ _ E) as Q.
    change (len (ep_objs (ep_emit [HRecv (FRequest r)] e0))) with (len (ep_objs e0)) in Q.
    assert (Gn : good true (ep_new (OReq k (rq_stream r) (has_sub k) false) (ep_emit [HRecv (FRequest r)] e0))).
    { apply good_new; [now apply good_emit|discriminate|]. intros k0 sid a0 b0 X. injection X as _ <- _ _. exact Ho. }
    apply (calm_channel true e0 e1 _ G S K).
    + intros s. rewrite Q. change (opened (ep_emit ?l ?x)) with (opened x). change (rids (HRecv (FRequest r) :: ?l)) with (rq_stream r :: rids l).
      assert (L : (cnt s [rq_stream r] <= cnt s (rq_stream r :: rids (dispatched reg k r (len (ep_objs e0)))))%nat) by (change (rq_stream r :: ?l) with ([rq_stream r] ++ l) at 2; rewrite cnt_app; lia).
      destruct (accepted reg k r && opens k); [|change (opened (ep_emit ?l ?x)) with (opened x); lia]. change (opened (register ?a ?b ?x)) with (opened x). rewrite (cnt_perm s _ _ (opened_new _ _)), cnt_app. cbn [oid].
      change (opened (ep_emit ?l ?x)) with (opened x). lia.
    + intros i' o R. rewrite Q. change (registered i' o (ep_emit ?l ?x)) with (registered i' o x). destruct (accepted reg k r && opens k); [|exact R].
      apply (registered_register true _ _ _ _ _ Gn). now left.
    + unfold dispatched, accepted in *. destruct (len (rq_metadata r) <? 8); [left; intros ? ? ? [X|[X|[]]]; discriminate|].
      destruct (do_get k reg _) as [h|]; [|left; intros ? ? ? [X|[X|[]]]; discriminate].
      destruct k; [left; intros ? ? ? [X|[X|[]]]; discriminate|left; intros ? ? ? [X|[X|[]]]; discriminate|left; intros ? ? ? [X|[X|[X|[]]]]; discriminate|right].
      cbn [negb andb opens has_sub] in Q, Gn. exists [HRecv (FRequest r)], (rq_stream r), h, {| py_data := rq_data r; py_meta := rq_metadata r |}, (Z.of_N (rq_initial r)). split; [reflexivity|].
      split; [intros ? ? ? [X|[]]; discriminate|]. rewrite Q.
      split; [exact (obj_new_new (OReq RC (rq_stream r) true false) (ep_emit [HRecv (FRequest r)] e0))|].
      change (registered (rq_stream r) (len (ep_objs e0)) (register (rq_stream r) (len (ep_objs e0)) (ep_new (OReq RC (rq_stream r) true false) (ep_emit [HRecv (FRequest r)] e0)))).
      apply (registered_register true _ _ _ _ _ Gn). now right.
  - intros r e0 G S _. apply emit_channel; auto; [apply calm_request_n|]. intros ? ? ? [X|[]]; discriminate.
  - intros r o e0 G S _ _. apply emit_channel; auto; [apply calm_demand|]. intros ? ? ? [X|[X|[]]]; discriminate.
Qed.
Lemma wasm_channel : forall c e, wasm_history c e -> channel_ok c e /\ good c e.
Proof. intros [] e H; [destruct H as (reg & sb & l & H); exact (guest_channel _ _ _ _ H)|destruct H as (sb & l & H); exact (host_channel _ _ _ H)]. Qed.

(** A guest invokes the handler where the request arrives. *)
Lemma view_serves : forall reg sb c x e e' ev, view reg sb c x e e' -> ep_trace e' = ep_trace e ++ ev -> serves x e = false -> forall k sid h p, ~ In (HInvoke k sid h p) ev.
Proof.
  intros reg sb client x e e' ev V T.
  assert (Pick : forall ev', ep_trace e' = ep_trace e ++ ev' -> ev' = ev) by (intros ev' T'; rewrite T in T'; apply app_inv_head in T'; congruence).
  assert (Snt : forall l k sid h p, ~ In (HInvoke k sid h p) (map HSent l)) by (intros l k sid h p X; apply in_map_iff in X; destruct X as (? & X & _); discriminate).
  destruct V as [x e Hx|p input e|k' p input b' y e Hk|o' y i e Ho Hl|o' n s0 s' l e Ho Hs|o' n sid' a' e Ho|o' s0 e Ho|o' sid' a' e Ho|o' ev' s0 e Ho|o' sid' a' b' e Ho
    |s0 t ev' e Hev|r k' e Hk|r ev' e Hk Hev|r js e Hjs Hm|f e Hf Hg|f o' y e Hf Hg Ho Hsk|i k' r e e' Hj He|i o' n e Hj|i o' s0 e Hj Ho|i o' e Hj Ho]; intros Sv.
  - rewrite <- (Pick []) by (symmetry; apply app_nil_r). auto.
  - erewrite <- Pick by reflexivity. intros ? ? ? ? [X|[]]; discriminate.
  - erewrite <- Pick by reflexivity. intros ? ? ? ? [X|[]]; discriminate.
  - erewrite <- Pick by reflexivity. destruct y; intros ? ? ? ? X; cbn in X; intuition discriminate.
  - erewrite <- Pick by reflexivity. intros ? ? ? ? [X|X]; [discriminate|exact (Snt _ _ _ _ _ X)].
  - erewrite <- Pick by reflexivity. intros ? ? ? ? [X|[]]; discriminate.
  - erewrite <- Pick by reflexivity. intros ? ? ? ? [X|X]; [discriminate|exact (Snt _ _ _ _ _ X)].
  - erewrite <- Pick by reflexivity. intros ? ? ? ? [X|[]]; discriminate.
  - erewrite <- Pick by reflexivity. intros ? ? ? ? [X|X]; [discriminate|exact (Snt _ _ _ _ _ X)].
  - rewrite <- (Pick []) by (symmetry; apply app_nil_r). auto.
  - erewrite <- Pick by reflexivity. intros ? ? ? ? X. destruct Hev as [->| ->]; cbn in X; intuition discriminate.
  - erewrite <- Pick by reflexivity. intros ? ? ? ? [X|[]]; discriminate.
  - erewrite <- Pick by reflexivity. intros ? ? ? ? X. destruct Hev as [->| ->]; cbn in X; intuition discriminate.
  - erewrite <- Pick by reflexivity. intros ? ? ? ? [X|[]]; discriminate.
  - erewrite <- Pick by reflexivity. intros ? ? ? ? [X|[X|[]]]; discriminate.
  - rewrite <- (Pick (HRecv f :: map (HCall o') (passed y (calls_of f)))) by (destruct (closes f); reflexivity).
    intros ? ? ? ? [X|X]; [discriminate|]. apply in_map_iff in X. destruct X as (? & X & _). discriminate.
  - cbn [serves] in Sv. rewrite Hj in Sv. discriminate.
  - erewrite <- Pick by reflexivity. intros ? ? ? ? [X|[]]; discriminate.
  - erewrite <- Pick by reflexivity. intros ? ? ? ? [X|[]]; discriminate.
  - rewrite <- (Pick []) by (symmetry; apply app_nil_r). auto.
Qed.
Definition at_arrival (t : list hevent) : Prop := forall t1 sid h p t2, t = t1 ++ HInvoke RC sid h p :: t2 -> exists t0 r, t1 = t0 ++ [HRecv (FRequest r)] /\ rq_stream r = sid.
Lemma arrival_more : forall t ev, at_arrival t -> (forall k sid h p, ~ In (HInvoke k sid h p) ev) -> at_arrival (t ++ ev).
Proof.
  intros t ev A N t1 sid h p t2 E. destruct (DemandProps.split_at2 _ _ _ _ _ _ E) as [(u & E1 & _)|(u & -> & E1)]; [exact (A _ _ _ _ _ E1)|].
  exfalso. apply (N RC sid h p). rewrite E1. apply in_app_iff. right. now left.
Qed.
Lemma guest_arrival : forall reg sb l e, guest_history reg sb l e -> at_arrival (ep_trace e).
Proof.
  intros reg sb l e (H & C & P). apply (guest_inv reg sb (fun e => at_arrival (ep_trace e))) with (l := l); auto; [intros [] ? ? ? ? X; discriminate X| | | | | |lia].
  - intros x e0 e1 G G' S _ Sv H1 H2 V. destruct (view_grows _ _ _ _ _ _ V) as (ev & T & _). rewrite T. apply arrival_more; [exact S|]. exact (view_serves _ _ _ _ _ _ ev V T Sv).
  - intros f e0 G S Hf. apply arrival_more; [exact S|]. intros ? ? ? ? [X|[]]; discriminate.
  - intros k r e0 e1 G G' S Hk Hf Ho E. pose proof (calm_guest_request _ _ _ _ _ _ G Ho E) as K. rewrite (ca_trace _ _ _ _ K). intros t1 sid h p t2 X.
    destruct (DemandProps.split_at2 _ _ _ _ _ _ X) as [(u & E1 & _)|(u & -> & E1)]; [exact (S _ _ _ _ _ E1)|]. destruct u as [|y u]; [discriminate|]. cbn [app] in E1. injection E1 as <- E1.
    assert (Z : u = [] /\ sid = rq_stream r).
    { unfold dispatched in E1. destruct (len (rq_metadata r) <? 8); [destruct u as [|? []]; discriminate|]. destruct (do_get k reg _) as [h'|]; [|destruct u as [|? []]; discriminate].
      destruct k; destruct u as [|? [|? [|]]]; cbn in E1; try discriminate; injection E1; intros; subst; auto. }
    destruct Z as [-> ->]. exists (ep_trace e0), r. split; reflexivity.
  - intros r e0 G S _. apply arrival_more; [exact S|]. intros ? ? ? ? [X|[]]; discriminate.
  - intros r o e0 G S _ _. apply arrival_more; [exact S|]. intros ? ? ? ? [X|[X|[]]]; discriminate.
Qed.

(** *** Both ends *)
Section C107.
Variable exported : list reg_call.
Variable imported : kind -> N -> option N.
Variable subscribable : bool -> N -> bool.
Variable behaves : bool -> N -> pay -> pay + bytes -> Prop.
Variable room : bool -> N.
Hypothesis few : len exported < 2 ^ 32.
Let runs := wruns exported imported subscribable behaves room.
Lemma wrequest_once : forall j, runs j -> fits room j -> forall c o k sid p b, k = RS \/ k = RC -> In (HCalled o k sid p b) (trace_of c j) ->
  (cnt sid (rids (trace_of (negb c) j)) <= 1)%nat.
Proof.
  intros j R U c o k sid p b Hk Hc. rewrite rids_requests. pose proof (wasm_inv exported imported subscribable behaves room few j R U) as J.
  destruct (wrecvd_on exported imported subscribable behaves j (negb c) sid J) as (n & Hn). rewrite negb_involutive in Hn.
  assert (F : Forall2 frame_received (filter is_request (firstn n (on sid (sd_out (at_side c j))))) (filter is_request (recvd sid (trace_of (negb c) j)))).
  { apply Forall2_filter; [exact Hn|]. intros f g _ H. destruct f, g; cbn in H; try contradiction; reflexivity. }
  apply Forall2_len in F. rewrite <- F.
  destruct (filter_firstn _ is_request n (on sid (sd_out (at_side c j)))) as (m & ->).
  rewrite (wown_out exported imported subscribable behaves room few j R U c sid (wcall_parity _ _ _ _ j c o k sid p b J Hc)), sent_on.
  pose proof (C98_demand_on_the_wire c _ _ _ _ _ _ (whistory _ _ _ _ j c J) Hk Hc) as S. unfold trace_of in *. rewrite S.
  rewrite firstn_length. eapply Nat.le_trans; [apply Nat.le_min_r|].
  destruct (asks o (ep_trace (sd_ep (at_side c j)))) as [|a ns]; [apply Nat.le_0_l|]. cbn [announce filter is_request List.length]. apply le_n_S.
  clear. induction ns; [apply Nat.le_refl|exact IHns].
Qed.
Lemma winput_served : forall j, runs j -> fits room j -> forall c o sid p b, In (HCalled o RC sid p b) (trace_of c j) ->
  forall t1 h q t2, trace_of (negb c) j = t1 ++ HInvoke RC sid h q :: t2 ->
  exists o' n t3, t2 = HDemand o' n :: t3 /\ got o' (trace_of (negb c) j) = got o' t3 /\ recvd sid (trace_of (negb c) j) = recvd sid t1 ++ recvd sid t3 /\
    served_at sid (sd_ep (at_side (negb c) j)) o' t3.
Proof.
  intros j R U c o sid p b Hc t1 h q t2 E. pose proof (wasm_inv exported imported subscribable behaves room few j R U) as J. unfold trace_of in E.
  destruct (wasm_channel _ _ (whistory _ _ _ _ j (negb c) J)) as [Ch _].
  destruct (ch_served (negb c) _ Ch t1 sid h q t2 E (wrequest_once j R U c o RC sid p b (or_intror eq_refl) Hc)) as (o' & n & t3 & -> & G & S).
  exists o', n, t3. split; [reflexivity|]. unfold trace_of. rewrite E, got_app, recvd_app, G. auto.
Qed.
(** A guest is given none of the input before the invocation: the request is the
    first frame that a host writes on a stream, unless it cancels, and the handler is invoked as it arrives. *)
Lemma wnothing_early : forall j, runs j -> fits room j -> forall o sid p b, In (HCalled o RC sid p b) (trace_of false j) ->
  (forall x, ~ In (FCancel x) (on sid (sd_out (at_side false j)))) ->
  forall t1 h q t2, trace_of true j = t1 ++ HInvoke RC sid h q :: t2 -> flat_map carried (recvd sid t1) = [].
Proof.
  intros j R U o sid p b Hc Nc t1 h q t2 E. pose proof (wasm_inv exported imported subscribable behaves room few j R U) as J.
  pose proof (wrequest_once j R U false o RC sid p b (or_intror eq_refl) Hc) as One. cbn [negb] in One.
  assert (Gh : wasm_history true (sd_ep (at_side true j))) by exact (whistory _ _ _ _ j true J). destruct Gh as (reg & sb & l & Gh).
  destruct (guest_arrival _ _ _ _ Gh t1 sid h q t2 E) as (t0 & r & -> & Er). clear Gh.
  assert (Rr : recvd sid [HRecv (FRequest r)] = [FRequest r]) by (unfold recvd; cbn [flat_map frame_stream]; rewrite Er, N.eqb_refl; reflexivity).
  rewrite recvd_app, flat_map_app, Rr. cbn [flat_map carried app]. rewrite app_nil_r.
  destruct (flat_map carried (recvd sid t0)) as [|v vs] eqn:Ev; [reflexivity|exfalso].
  assert (In v (flat_map carried (recvd sid t0))) as Hv by (rewrite Ev; now left). apply in_flat_map in Hv. destruct Hv as (f & F1 & F2). clear Ev vs.
  apply in_split in F1. destruct F1 as (a & z & F1).
  (* the frames received on the stream, and those written for it *)
  destruct (wrecvd_on exported imported subscribable behaves j true sid J) as (n & Hn). cbn [negb] in Hn.
  assert (Er2 : recvd sid (trace_of true j) = a ++ f :: z ++ [FRequest r] ++ recvd sid (HInvoke RC sid h q :: t2)).
  { rewrite E, recvd_app, recvd_app, F1, Rr. rewrite <- !app_assoc. reflexivity. }
  rewrite rids_requests, Er2, filter_app, app_length in One. cbn [filter] in One.
  assert (Na : filter is_request a = []).
  { destruct (filter is_request a); [reflexivity|]. destruct (is_request f); cbn [List.length] in One; rewrite filter_app, app_length in One; cbn in One; lia. }
  rewrite Er2 in Hn. apply Forall2_app_inv_r in Hn. destruct Hn as (a' & w' & Ha & Hw & Eo). inversion Hw as [|f' ? w ? Hf Hw']. subst w'.
  assert (Na' : filter is_request a' = []).
  { clear -Ha Na. induction Ha as [|x y a' a Hxy Ha IH]; [reflexivity|]. cbn [filter] in *. destruct x, y; cbn in Hxy; try contradiction; cbn in *; try discriminate; auto. }
  assert (Hd : input_frame f' = true /\ frame_stream f' = sid /\ exists w2, on sid (sent_by (trace_of false j)) = a' ++ f' :: w2).
  { assert (Eo2 : exists w2, on sid (sent_by (trace_of false j)) = a' ++ f' :: w2).
    { rewrite <- (wown_out exported imported subscribable behaves room few j R U false sid (wcall_parity _ _ _ _ j false o RC sid p b J Hc)).
      exists (w ++ skipn n (on sid (sd_out (at_side false j)))). rewrite <- (firstn_skipn n (on sid (sd_out (at_side false j)))) at 1. rewrite Eo, <- app_assoc. reflexivity. }
    destruct Eo2 as (w2 & Eo2). assert (X : In f' (on sid (sent_by (trace_of false j)))) by (rewrite Eo2; apply in_app_iff; right; now left).
    split; [|split; [unfold on in X; apply filter_In in X; apply N.eqb_eq; tauto|eauto]].
    clear Er2 Rr H0 H1; destruct f' as [| | |yc|yp|ye], f as [| | |y2|y2|y2]; cbn in Hf; try contradiction; cbn in F2; try contradiction; try reflexivity.
    exfalso. apply (Nc yc). rewrite (wown_out exported imported subscribable behaves room few j R U false sid (wcall_parity _ _ _ _ j false o RC sid p b J Hc)). exact X. }
  destruct Hd as (Hi & Hs & w2 & Eo2).
  (* split the trace of the host at that frame *)
  assert (Sp : forall t u f' w2, on sid (sent_by t) = u ++ f' :: w2 -> frame_stream f' = sid -> exists s1 s2, t = s1 ++ HSent f' :: s2 /\ on sid (sent_by s1) = u).
  { clear. induction t as [|y t IH]; intros u f' w2 H Hs; [destruct u; discriminate|].
    change (y :: t) with ([y] ++ t) in H. rewrite sent_by_app in H. unfold on in H. rewrite filter_app in H. fold (on sid (sent_by t)) in H.
    assert (D : filter (fun g => frame_stream g =? sid) (sent_by [y]) = [] \/ exists g, y = HSent g /\ frame_stream g = sid).
    { destruct y; auto. cbn. destruct (frame_stream f =? sid) eqn:Ef; [right; exists f; split; [reflexivity|now apply N.eqb_eq]|now left]. }
    destruct D as [D|(g & -> & Hg)].
    - rewrite D in H. destruct (IH u f' w2 H Hs) as (s1 & s2 & -> & O). exists (y :: s1), s2. split; [reflexivity|]. change (y :: s1) with ([y] ++ s1). rewrite sent_by_app. unfold on in *. rewrite filter_app, D. exact O.
    - cbn [sent_by flat_map app filter] in H. rewrite Hg, N.eqb_refl in H. destruct u as [|g' u]; cbn [app] in H; injection H as <- H.
      + exists [], t. split; reflexivity.
      + destruct (IH u f' w2 H Hs) as (s1 & s2 & -> & O). exists (HSent g :: s1), s2. split; [reflexivity|]. change (HSent g :: s1) with ([HSent g] ++ s1). rewrite sent_by_app. unfold on in *. rewrite filter_app, O. cbn. rewrite Hg, N.eqb_refl. reflexivity. }
  destruct (Sp _ _ _ _ Eo2 Hs) as (s1 & s2 & Et & Os).
  pose proof (whistory _ _ _ _ j false J) as Wh.
  destruct (C98_input_on_the_wire false _ _ _ _ _ _ Wh (or_intror eq_refl) Hc) as [_ Bf]. specialize (Bf s1 f' s2 Et Hi Hs).
  pose proof (C98_demand_on_the_wire false _ _ _ _ _ _ Wh (or_intror eq_refl) Hc) as W. fold (trace_of false j) in W. rewrite Et in W.
  assert (Ws : exists rest, sent demand_frame sid s1 ++ rest = announce (call_request RC sid p) (asks o (trace_of false j))).
  { rewrite Et. rewrite <- W. unfold sent. rewrite flat_map_app. eauto. }
  destruct Ws as (rest & Ws). destruct (sent demand_frame sid s1) as [|g gs] eqn:Eg; [now apply Bf|].
  assert (Rg : is_request g = true). { destruct (asks o (trace_of false j)); [discriminate|]. cbn [announce app] in Ws. injection Ws as -> _. reflexivity. }
  assert (X : In g (filter is_request a')).
  { apply filter_In. split; [|exact Rg]. rewrite <- Os. assert (Y : In g (sent demand_frame sid s1)) by (rewrite Eg; now left). unfold sent in Y. apply in_flat_map in Y.
    destruct Y as (yy & Y1 & Y2). destruct yy; try (destruct Y2; fail). destruct (demand_frame f0); cbn [andb] in Y2; [|destruct Y2]. destruct (frame_stream f0 =? sid) eqn:Ef; [|destruct Y2].
    destruct Y2 as [<-|[]]. unfold on. apply filter_In. split; [|exact Ef]. unfold sent_by. apply in_flat_map. exists (HSent f0). split; [exact Y1|now left]. }
  rewrite Na' in X. destruct X.
Qed.
End C107.

(** ** C107 *)
(** A handler is invoked on a channel with a stream of its own for the input; all
    that reaches this stream was written by the caller's end on the stream of the
    call, in that order and no more often. *)
Theorem C107_nothing_invented :
  forall exported imported sb behaves room, len exported < 2 ^ 32 ->
  forall j, wruns exported imported sb behaves room j -> fits room j ->
  forall c o sid p input, In (HCalled o RC sid p input) (trace_of c j) ->
  forall t1 h q t2, trace_of (negb c) j = t1 ++ HInvoke RC sid h q :: t2 ->
    exists o' n t3, t2 = HDemand o' n :: t3 /\ subseq (got o' (trace_of (negb c) j)) (flat_map carried (on sid (sd_out (at_side c j)))).
Proof.
  intros exported imported sb behaves room L j R U c o sid p input Hc t1 h q t2 E. pose proof (wasm_inv exported imported sb behaves room L j R U) as J.
  destruct (winput_served exported imported sb behaves room L j R U c o sid p input Hc t1 h q t2 E) as (o' & n & t3 & -> & G & Rv & _ & S & _).
  exists o', n, t3. split; [reflexivity|]. rewrite G. destruct (wrecvd_on exported imported sb behaves j (negb c) sid J) as (m & Hm). rewrite negb_involutive, Rv in Hm.
  pose proof (carried_same _ _ Hm) as Z. rewrite <- (firstn_skipn m (on sid (sd_out (at_side c j)))), flat_map_app, <- Z, flat_map_app. rewrite <- carried_all in S.
  apply subseq_more. now apply subseq_before.
Qed.
(** If nothing of the input arrives before the invocation, and the caller's end
    writes no more input after closing the stream: at every moment the handler's
    input was given a beginning of what was written, and all of it when
    everything has arrived. *)
Theorem C107_in_order :
  forall exported imported sb behaves room, len exported < 2 ^ 32 ->
  forall j, wruns exported imported sb behaves room j -> fits room j ->
  forall c o sid p input, In (HCalled o RC sid p input) (trace_of c j) ->
  forall t1 h q t2, trace_of (negb c) j = t1 ++ HInvoke RC sid h q :: t2 ->
    let written := on sid (sd_out (at_side c j)) in
    flat_map carried (recvd sid t1) = [] -> closed_last written ->
    exists o' n t3, t2 = HDemand o' n :: t3 /\
      (exists m, got o' (trace_of (negb c) j) = flat_map carried (firstn m written)) /\
      (List.length (received (trace_of (negb c) j)) = List.length (sd_out (at_side c j)) -> got o' (trace_of (negb c) j) = flat_map carried written).
Proof.
  intros exported imported sb behaves room L j R U c o sid p input Hc t1 h q t2 E written Ea Cl. pose proof (wasm_inv exported imported sb behaves room L j R U) as J.
  destruct (winput_served exported imported sb behaves room L j R U c o sid p input Hc t1 h q t2 E) as (o' & n & t3 & -> & G & Rv & _ & _ & _ & S).
  exists o', n, t3. split; [reflexivity|]. rewrite G.
  assert (K : forall m, Forall2 frame_received (firstn m written) (recvd sid (trace_of (negb c) j)) -> got o' t3 = flat_map carried (firstn m written)).
  { intros m Hm. pose proof (closed_last_received _ _ Hm (closed_last_firstn m _ Cl)) as X. rewrite Rv in X.
    rewrite <- (carried_same _ _ Hm), Rv, flat_map_app, Ea. cbn [app]. rewrite carried_all. apply S. exact (closed_last_tail _ _ X). }
  split.
  - destruct (wrecvd_on exported imported sb behaves j (negb c) sid J) as (m & Hm). rewrite negb_involutive in Hm. exists m. now apply K.
  - intros D. assert (D' : List.length (received (trace_of (negb c) j)) = List.length (sd_out (at_side (negb (negb c)) j))) by (rewrite negb_involutive; exact D).
    pose proof (wrecvd_all exported imported sb behaves room L j (negb c) sid J D') as Hm. rewrite negb_involutive in Hm. fold written in Hm.
    rewrite <- (firstn_all written) in Hm. rewrite (K _ Hm). now rewrite firstn_all.
Qed.
(** What a host's input emits, demanded or not, reaches a guest's handler: the guest
    invokes it as the request arrives, which the host writes before any input.  If
    the input ends once and the call is not cancelled, the handler's input is given
    a beginning of what the host's input emitted since the call was first requested
    from, and all of it when everything has arrived. *)
Theorem C107_guest_input_end_to_end :
  forall exported imported sb behaves room, len exported < 2 ^ 32 ->
  forall j, wruns exported imported sb behaves room j -> fits room j ->
  forall o sid p, In (HCalled o RC sid p true) (trace_of false j) ->
  ends_once (feds o (trace_of false j)) -> (forall x, ~ In (FCancel x) (on sid (sd_out (at_side false j)))) ->
  forall t1 h q t2, trace_of true j = t1 ++ HInvoke RC sid h q :: t2 ->
    exists o' n t3, t2 = HDemand o' n :: t3 /\
      (exists m, got o' (trace_of true j) = flat_map heard (firstn m (feds o (trace_of false j)))) /\
      (List.length (received (trace_of true j)) = List.length (sd_out (at_side false j)) -> got o' (trace_of true j) = flat_map heard (feds o (trace_of false j))).
Proof.
  intros exported imported sb behaves room L j R U o sid p Hc En Nc t1 h q t2 E. pose proof (wasm_inv exported imported sb behaves room L j R U) as J.
  pose proof (wnothing_early exported imported sb behaves room L j R U o sid p true Hc Nc t1 h q t2 E) as Ea.
  destruct (C98_input_on_the_wire false _ _ _ _ _ _ (whistory _ _ _ _ j false J) (or_intror eq_refl) Hc) as [S _]. cbv iota in S.
  fold (trace_of false j) in S.
  assert (W : filter data_frame (on sid (sd_out (at_side false j))) = map (in_frame sid) (feds o (trace_of false j))).
  { rewrite (wown_out exported imported sb behaves room L j R U false sid (wcall_parity _ _ _ _ j false o RC sid p true J Hc)), sent_inputs. exact S. }
  assert (Cl : closed_last (on sid (sd_out (at_side false j)))) by (apply closed_data; [exact Nc|]; rewrite W; now apply closed_inputs).
  destruct (C107_in_order exported imported sb behaves room L j R U false o sid p true Hc t1 h q t2 E Ea Cl) as (o' & n & t3 & E3 & (m & A) & B). cbn [negb] in A, B.
  exists o', n, t3. split; [exact E3|]. split.
  - rewrite carried_data in A by (intros x Hx; apply firstn_in in Hx; exact (Nc x Hx)).
    destruct (filter_firstn _ data_frame m (on sid (sd_out (at_side false j)))) as (m' & Hm). rewrite Hm, W, firstn_map, heard_frames in A. eauto.
  - intros D. rewrite (B D), carried_data, W by exact Nc. apply heard_frames.
Qed.

(** *** Runs: the host calls a channel of the guest and its input emits two values
    and completes before the guest has seen the request, whose handler subscribes to its
    input at once; the guest calls a channel of
    the host and its input emits a value at once. *)
Definition C107_exports : list reg_call := [CExport RR ([97], [98]) 10; CExport RC ([97], [98]) 31].
Definition C107_runs := wruns C107_exports C99_imports (fun _ _ => true) C99_behaves C99_room.
Definition C107_step (c : bool) (x : hop) (j : joint) : res ep := side_step C107_exports C99_imports (fun _ _ => true) c x (sd_ep (at_side c j)).
Definition C107_do (c : bool) (x : hop) (j : joint) : joint := put_side c (advance x (match C107_step c x j with Ok e => e | _ => ep_init end) (at_side c j)) j.
Definition C107_get (c : bool) (j : joint) : joint := C107_do c (XFrame (C99_crossed c (C99_next c j))) j.
Lemma C107_op : forall c x j, (forall f, x <> XFrame f) -> is_ok (C107_step c x j) = true -> C107_runs j -> C107_runs (C107_do c x j).
Proof.
  intros c x j Hx H R. eapply wr_step; [exact R|]. unfold C107_do. destruct (C107_step c x j) as [e| |] eqn:E; try discriminate. apply WOp; [exact Hx|exact E].
Qed.
Lemma C107_frame : forall c j, (List.length (received (trace_of c j)) <? List.length (sd_out (at_side (negb c) j)))%nat = true ->
  C99_crossable c (C99_next c j) = true -> is_ok (C107_step c (XFrame (C99_crossed c (C99_next c j))) j) = true -> C107_runs j -> C107_runs (C107_get c j).
Proof.
  intros c j Hn Hc Ho R. eapply wr_step; [exact R|]. unfold C107_get, C107_do. destruct (C107_step c _ j) as [e| |] eqn:E; try discriminate.
  eapply (WFrame _ _ _ _ _ c (C99_next c j)); [apply nth_error_nth'; now apply Nat.ltb_lt| |exact E].
  unfold C99_crossable, C99_crossed, crosses in *. destruct (write_frame (zeros (C99_room c)) (C99_next c j)) as [[buf n]| |] eqn:W; try discriminate.
  exists [], (zeros (C99_room c)), [], buf, n. rewrite app_nil_r. cbn [app]. replace (len []) with 0 by reflexivity.
  destruct (if c then guest_receive buf n else host_receive buf 0 n) as [[|body [|]] []]; try discriminate.
  exists body. destruct (frame_of_bytes body); try discriminate. repeat split; auto. apply len_zeros.
Qed.
Ltac C107_act :=
  match goal with
  | |- C107_runs (C107_do _ _ _) => apply C107_op; [discriminate|vm_compute; reflexivity|]
  | |- C107_runs (C107_get _ _) => apply C107_frame; [vm_compute; reflexivity|vm_compute; reflexivity|vm_compute; reflexivity|]
  end.
Definition C107_1 := C107_do false (XIn 0 InComplete) (C107_do false (XIn 0 (InNext (C94_val 62))) (C107_do false (XIn 0 (InNext (C94_val 61)))
  (C107_do false (XRequest 0 3) (C107_do false (XSubscribe 0) (C107_do false (XCall RC C100_pay1 true) joint_init))))).
Definition C107_2 := C107_get true (C107_do true (XListen 0) (C107_get true C107_1)).
Definition C107_3 := C107_get true (C107_get true C107_2).
Definition C107_e1 := C107_do true (XIn 0 (InNext (C94_val 61))) (C107_do true (XRequest 0 3) (C107_do true (XSubscribe 0) (C107_do true (XCall RC C100_pay2 true) joint_init))).
Definition C107_e2 := C107_do false (XJob 0) (C107_get false (C107_get false C107_e1)).
Ltac C107_small j := let c := fresh in let E := fresh in intros c; split; [|destruct c; vm_compute; reflexivity]; destruct c;
  [let l := eval vm_compute in (sd_out (at_side true j)) in assert (E : sd_out (at_side true j) = l) by (vm_compute; reflexivity)
  |let l := eval vm_compute in (sd_out (at_side false j)) in assert (E : sd_out (at_side false j) = l) by (vm_compute; reflexivity)]; rewrite E; repeat constructor; cbn; lia.
Lemma C107_runs3 : C107_runs C107_3.
Proof. unfold C107_3, C107_2, C107_1. do 11 C107_act. constructor. Qed.
Lemma C107_runs_early : C107_runs C107_e2.
Proof. unfold C107_e2, C107_e1. do 7 C107_act. constructor. Qed.
Lemma C107_fits : fits C99_room C107_3. Proof. C107_small C107_3. Qed.
Lemma C107_fits_early : fits C99_room C107_e2. Proof. C107_small C107_e2. Qed.
Definition C107_before : list hevent := Eval vm_compute in firstn 1 (trace_of true C107_3).
Definition C107_since : list hevent := Eval vm_compute in skipn 2 (trace_of true C107_3).
Example C107_example :
  C107_runs C107_3 /\ fits C99_room C107_3 /\ len C107_exports < 2 ^ 32 /\ In (HCalled 0 RC 2 C100_pay1 true) (trace_of false C107_3) /\
  ends_once (feds 0 (trace_of false C107_3)) /\ (forall x, ~ In (FCancel x) (on 2 (sd_out (at_side false C107_3)))) /\
  trace_of true C107_3 = C107_before ++ HInvoke RC 2 31 C100_pay1 :: C107_since /\ flat_map carried (recvd 2 C107_before) = [] /\ closed_last (on 2 (sd_out (at_side false C107_3))) /\
  List.length (received (trace_of true C107_3)) = List.length (sd_out (at_side false C107_3)) /\
  feds 0 (trace_of false C107_3) = [InNext (C94_val 61); InNext (C94_val 62); InComplete] /\
  got 0 (trace_of true C107_3) = [SNext (C94_val 61); SNext (C94_val 62); SComplete] /\ got 0 (trace_of true C107_2) = [SNext (C94_val 61)] /\ ~ driven 0 (trace_of false C107_3).
Proof.
  split; [exact C107_runs3|]. split; [exact C107_fits|]. split; [reflexivity|]. split; [vm_compute; tauto|]. split; [vm_compute; tauto|].
  split; [intros x; vm_compute; intuition discriminate|]. repeat match goal with |- _ /\ _ => split end; try (vm_compute; reflexivity).
  - vm_compute. repeat split; auto; discriminate.
  - intros D. assert (E : exists t1 x t2, trace_of false C107_3 = t1 ++ HFed 0 x :: t2 /\ forall n, ~ In (HDemand 0 n) t1).
    { eexists (firstn 4 (trace_of false C107_3)), _, _. split; [vm_compute; reflexivity|]. intros n. vm_compute. intuition discriminate. }
    destruct E as (t1 & x & t2 & E & N). destruct (D _ _ _ E) as (n & H). exact (N n H).
Qed.
(** Not so when the guest is the caller: the host runs handlers in goroutines of
    their own, and what arrives before the handler runs is lost. *)
Theorem C107_host_early_input_lost_refuted :
  ~ (forall exported imported sb behaves room, len exported < 2 ^ 32 ->
     forall j, wruns exported imported sb behaves room j -> fits room j ->
     forall o sid p, In (HCalled o RC sid p true) (trace_of true j) ->
     ends_once (feds o (trace_of true j)) -> (forall x, ~ In (FCancel x) (on sid (sd_out (at_side true j)))) ->
     forall t1 h q o' n t3, trace_of false j = t1 ++ HInvoke RC sid h q :: HDemand o' n :: t3 ->
       List.length (received (trace_of false j)) = List.length (sd_out (at_side true j)) ->
       got o' (trace_of false j) = flat_map heard (feds o (trace_of true j))).
Proof.
  intros H. assert (E : trace_of false C107_e2 = firstn 3 (trace_of false C107_e2) ++ HInvoke RC 1 32 C100_pay2 :: HDemand 0 3 :: []) by (vm_compute; reflexivity).
  specialize (H C107_exports C99_imports (fun _ _ => true) C99_behaves C99_room eq_refl C107_e2 C107_runs_early C107_fits_early 0 1 C100_pay2 ltac:(vm_compute; tauto)
    ltac:(vm_compute; tauto) ltac:(intros x; vm_compute; intuition discriminate) _ _ _ _ _ _ E ltac:(vm_compute; reflexivity)).
  assert (L : got 0 (trace_of false C107_e2) = []) by (vm_compute; reflexivity).
  assert (L2 : flat_map heard (feds 0 (trace_of true C107_e2)) = [SNext (C94_val 61)]) by (vm_compute; reflexivity). rewrite L, L2 in H. discriminate H.
Qed.
Print Assumptions C107_nothing_invented.
Print Assumptions C107_in_order.
Print Assumptions C107_guest_input_end_to_end.
Print Assumptions C107_host_early_input_lost_refuted.
