(** For C95: demand for the input of a channel comes from the invoked handler. *)
From Verif Require Import Base BaseFacts FramesModel WasmModel InvokeModel LookupModel HandlerModel HandlerFacts HandlerProps HandlerCallProps HandlerCrashProps JointModel JointFacts JointProps DemandProps StreamFacts ChannelFacts.

Section Views.
Variables (reg : registry) (sb : N -> bool) (client : bool).
Lemma in_sent : forall x l, In x (map HSent l) -> exists f, x = HSent f /\ In f l.
Proof. intros x l H. apply in_map_iff in H. destruct H as (f & <- & H). eauto. Qed.
Lemma view_demands : forall x e e' ev, view reg sb client x e e' -> ep_trace e' = ep_trace e ++ ev -> forall o n, In (HDemand o n) ev ->
  In (JDemand o n) (ep_jobs e) \/ exists k sid a b, ep_obj o e' = Some (OReq k sid a b).
Proof.
  intros x e e' ev V T o n.
  assert (Pick : forall ev', ep_trace e' = ep_trace e ++ ev' -> ev' = ev) by (intros ev' T'; rewrite T in T'; apply app_inv_head in T'; congruence).
  destruct V as [x e Hx|p input e|k' p input b' y e Hk|o' y i e Ho Hl|o' n0 s0 s' l e Ho Hs|o' n0 sid' a' e Ho|o' s0 e Ho|o' sid' a' e Ho|o' ev' s0 e Ho|o' sid' a' b' e Ho
    |s0 t ev' e Hev|r k' e Hk|r ev' e Hk Hev|r js e Hjs Hm|f e Hf Hg|f o' y e Hf Hg Ho Hsk|i k' r e e' Hj He|i o' n0 e Hj|i o' s0 e Hj Ho|i o' e Hj Ho];
    try (erewrite <- Pick by reflexivity; intros X; exfalso; destruct X as [X|X]; [discriminate X|]; destruct X; fail);
    try (erewrite <- Pick by reflexivity; intros X; exfalso; destruct X as [X|X]; [discriminate X|]; apply in_sent in X; destruct X as (? & X & _); discriminate X).
  - rewrite <- (Pick []) by (symmetry; apply app_nil_r). intros [].
  - erewrite <- Pick by reflexivity. intros X. exfalso. destruct y; cbn in X; intuition discriminate.
  - rewrite <- (Pick []) by (symmetry; apply app_nil_r). intros [].
  - erewrite <- Pick by reflexivity. intros X. exfalso. destruct Hev as [->| ->]; cbn in X; intuition discriminate.
  - erewrite <- Pick by reflexivity. intros X. exfalso. destruct Hev as [->| ->]; cbn in X; intuition discriminate.
  - erewrite <- Pick by reflexivity. intros X. exfalso. cbn in X; intuition discriminate.
  - rewrite <- (Pick (HRecv f :: map (HCall o') (passed y (calls_of f)))) by (destruct (closes f); reflexivity).
    intros [X|X]; [discriminate|]. apply in_map_iff in X. destruct X as (? & X & _). discriminate.
  - pose proof (handle_request_eq _ _ _ _ _ _ He) as E. change (len (ep_objs (drop_job i e))) with (len (ep_objs e)) in E.
    rewrite <- (Pick (dispatched reg k' r (len (ep_objs e)))) by (rewrite E; destruct (accepted reg k' r && opens k'); reflexivity).
    unfold dispatched, accepted in *. destruct (len (rq_metadata r) <? 8); [intros [X|[]]; discriminate|].
    destruct (do_get k' reg _) as [h|]; [|intros [X|[]]; discriminate].
    destruct k'; [intros [X|[]]; discriminate|intros [X|[]]; discriminate|intros [X|[X|[]]]; [discriminate|]..]; injection X as <- _; right;
      cbn [negb andb opens has_sub] in E; do 4 eexists; rewrite E; exact (obj_new_new (OReq _ (rq_stream r) true false) (drop_job i e)).
  - erewrite <- Pick by reflexivity. intros [X|[]]. injection X as <- <-. left. exact (nth_error_In _ _ Hj).
  - rewrite <- (Pick []) by (symmetry; apply app_nil_r). intros [].
Qed.
Lemma view_jobs : forall x e e', view reg sb client x e e' -> forall o n, In (JDemand o n) (ep_jobs e') ->
  In (JDemand o n) (ep_jobs e) \/ exists r, x = XFrame (FRequestN r) /\ get_stream (rn_stream r) e = Some o.
Proof.
  intros x e e' V o n.
  assert (Dr : forall i, In (JDemand o n) (firstn i (ep_jobs e) ++ skipn (S i) (ep_jobs e)) -> In (JDemand o n) (ep_jobs e)).
  { intros i H. rewrite <- (firstn_skipn i (ep_jobs e)), in_app_iff. apply in_app_iff in H. destruct H as [H|H]; [now left|right].
    rewrite skipn_S_tl in H. destruct (skipn i (ep_jobs e)); [destruct H|now right]. }
  destruct V as [x e Hx|p input e|k' p input b' y e Hk|o' y i e Ho Hl|o' n0 s0 s' l e Ho Hs|o' n0 sid' a' e Ho|o' s0 e Ho|o' sid' a' e Ho|o' ev' s0 e Ho|o' sid' a' b' e Ho
    |s0 t ev' e Hev|r k' e Hk|r ev' e Hk Hev|r js e Hjs Hm|f e Hf Hg|f o' y e Hf Hg Ho Hsk|i k' r e e' Hj He|i o' n0 e Hj|i o' s0 e Hj Ho|i o' e Hj Ho];
    try (left; assumption); try (intros X; left; exact (Dr i X)).
  - cbn [ep_emit add_jobs ep_jobs]. rewrite in_app_iff. intros [X|[X|[]]]; [now left|discriminate].
  - cbn [ep_emit add_jobs ep_jobs]. rewrite in_app_iff. intros [X|X]; [now left|]. destruct Hjs as [->|(o' & Hg & ->)]; [destruct X|]. destruct X as [X|[]]. injection X as -> _. right. eauto.
  - intros X. left. assert (X' : In (JDemand o n) (ep_jobs e ++ settles o' y (calls_of f))) by (destruct (closes f); exact X). apply in_app_iff in X'. destruct X' as [X'|X']; [exact X'|exfalso].
    unfold settles in X'. destruct y; try destruct X'. apply in_map_iff in X'. destruct X' as (? & X' & _). discriminate.
  - intros X. left. apply (Dr i). rewrite (handle_request_eq _ _ _ _ _ _ He) in X. destruct (accepted reg k' r && opens k'); exact X.
Qed.
Lemma view_pulls : forall x e e' ev, view reg sb client x e e' -> ep_trace e' = ep_trace e ++ ev -> forall r, In (HSent (FRequestN r)) ev ->
  (exists o s, ep_obj o e = Some (OFlux s) /\ rn_stream r = rq_stream (sf_req s)) \/ exists o a, ep_obj o e = Some (OReq RC (rn_stream r) a true).
Proof.
  intros x e e' ev V T rn.
  assert (Pick : forall ev', ep_trace e' = ep_trace e ++ ev' -> ev' = ev) by (intros ev' T'; rewrite T in T'; apply app_inv_head in T'; congruence).
  destruct V as [x e Hx|p input e|k' p input b' y e Hk|o' y i e Ho Hl|o' n0 s0 s' l e Ho Hs|o' n0 sid' a' e Ho|o' s0 e Ho|o' sid' a' e Ho|o' ev' s0 e Ho|o' sid' a' b' e Ho
    |s0 t ev' e Hev|r k' e Hk|r ev' e Hk Hev|r js e Hjs Hm|f e Hf Hg|f o' y e Hf Hg Ho Hsk|i k' r e e' Hj He|i o' n0 e Hj|i o' s0 e Hj Ho|i o' e Hj Ho].
  - rewrite <- (Pick []) by (symmetry; apply app_nil_r). intros [].
  - erewrite <- Pick by reflexivity. intros [X|[]]; discriminate.
  - erewrite <- Pick by reflexivity. intros [X|[]]; discriminate.
  - erewrite <- Pick by reflexivity. intros X. exfalso. destruct y; cbn in X; intuition discriminate.
  - erewrite <- Pick by reflexivity. intros [X|X]; [discriminate|]. apply in_sent in X. destruct X as (f & X & F). injection X as <-. left. exists o', s0. split; [exact Ho|].
    unfold sf_request in Hs. destruct (sf_complete s0); [injection Hs as _ <-; destruct F|]. destruct (sf_first s0); injection Hs as _ <-; destruct F as [F|[]]; [discriminate|]. injection F as <-. reflexivity.
  - erewrite <- Pick by reflexivity. intros [X|[]]. injection X as <-. right. eauto.
  - erewrite <- Pick by reflexivity. intros [X|[X|[]]]; discriminate.
  - erewrite <- Pick by reflexivity. intros [X|[]]; discriminate.
  - erewrite <- Pick by reflexivity. intros [X|X]; [discriminate|]. apply in_sent in X. destruct X as (f & X & F). injection X as <-. exfalso. unfold sf_input in F.
    destruct (sf_in s0 && negb (sf_first s0)); [|destruct F]. destruct F as [F|[]]. destruct ev'; discriminate.
  - rewrite <- (Pick []) by (symmetry; apply app_nil_r). intros [].
  - erewrite <- Pick by reflexivity. intros X. exfalso. destruct Hev as [->| ->]; cbn in X; intuition discriminate.
  - erewrite <- Pick by reflexivity. intros [X|[]]; discriminate.
  - erewrite <- Pick by reflexivity. intros X. exfalso. destruct Hev as [->| ->]; cbn in X; intuition discriminate.
  - erewrite <- Pick by reflexivity. intros [X|[]]; discriminate.
  - erewrite <- Pick by reflexivity. intros [X|[X|[]]]; discriminate.
  - rewrite <- (Pick (HRecv f :: map (HCall o') (passed y (calls_of f)))) by (destruct (closes f); reflexivity).
    intros [X|X]; [discriminate|]. apply in_map_iff in X. destruct X as (? & X & _). discriminate.
  - pose proof (handle_request_eq _ _ _ _ _ _ He) as E. change (len (ep_objs (drop_job i e))) with (len (ep_objs e)) in E.
    rewrite <- (Pick (dispatched reg k' r (len (ep_objs e)))) by (rewrite E; destruct (accepted reg k' r && opens k'); reflexivity).
    unfold dispatched, accepted in *. destruct (len (rq_metadata r) <? 8); [intros [X|[]]; discriminate|].
    destruct (do_get k' reg _) as [h|]; [|intros [X|[]]; discriminate]. destruct k'; intros X; exfalso; cbn in X; intuition discriminate.
  - erewrite <- Pick by reflexivity. intros [X|[]]; discriminate.
  - erewrite <- Pick by reflexivity. intros [X|[]]; discriminate.
  - rewrite <- (Pick []) by (symmetry; apply app_nil_r). intros [].
Qed.
Lemma view_serves : forall x e e' ev, view reg sb client x e e' -> ep_trace e' = ep_trace e ++ ev -> forall o sid a b, ep_obj o e' = Some (OReq RC sid a b) ->
  (exists b', ep_obj o e = Some (OReq RC sid a b')) \/ exists h p, In (HInvoke RC sid h p) ev.
Proof.
  intros x e e' ev V T o sid a b.
  assert (Pick : forall ev', ep_trace e' = ep_trace e ++ ev' -> ev' = ev) by (intros ev' T'; rewrite T in T'; apply app_inv_head in T'; congruence).
  assert (Set1 : forall e1 o' s z, ep_objs e1 = ep_objs e -> ep_obj o' e = Some (OFlux s) -> ep_obj o (ep_set o' (OFlux z) e1) = Some (OReq RC sid a b) -> exists b', ep_obj o e = Some (OReq RC sid a b')).
  { intros e1 o' s z E1 Ho H. assert (Ho1 : ep_obj o' e1 = Some (OFlux s)) by (unfold ep_obj in *; now rewrite E1).
    destruct (N.eq_dec o' o) as [->|Ne]; [rewrite (obj_set_same o _ e1 _ Ho1) in H; discriminate|]. rewrite obj_set_other in H by exact Ne. exists b. unfold ep_obj in *. now rewrite E1 in H. }
  destruct V as [x e Hx|p input e|k' p input b' y e Hk|o' y i e Ho Hl|o' n0 s0 s' l e Ho Hs|o' n0 sid' a' e Ho|o' s0 e Ho|o' sid' a' e Ho|o' ev' s0 e Ho|o' sid' a' b' e Ho
    |s0 t ev' e Hev|r k' e Hk|r ev' e Hk Hev|r js e Hjs Hm|f e Hf Hg|f o' y e Hf Hg Ho Hsk|i k' r e e' Hj He|i o' n0 e Hj|i o' s0 e Hj Ho|i o' e Hj Ho];
    try (intros X; left; exists b; exact X).
  - intros X. left. change (ep_obj o (ep_new y (with_ids (ep_ids e + 1) e)) = Some (OReq RC sid a b)) in X. apply obj_new in X. destruct X as [X|[_ X]]; [exists b; exact X|].
    destruct Hk as [(_ & _ & ->)|[(_ & _ & ->)|(_ & _ & ->)]]; discriminate.
  - intros X. left. exact (Set1 e o' s0 s' eq_refl Ho X).
  - intros X. left. destruct (N.eq_dec o' o) as [->|Ne]; [|rewrite obj_set_other in X by exact Ne; eauto]. rewrite (obj_set_same o _ e _ Ho) in X. injection X as <- <- _. eauto.
  - intros X. left. exists b. destruct (closes f); exact X.
  - pose proof (handle_request_eq _ _ _ _ _ _ He) as E. change (len (ep_objs (drop_job i e))) with (len (ep_objs e)) in E. intros X.
    rewrite <- (Pick (dispatched reg k' r (len (ep_objs e)))) by (rewrite E; destruct (accepted reg k' r && opens k'); reflexivity).
    destruct (accepted reg k' r && opens k') eqn:Ea; rewrite E in X; [|left; exists b; exact X].
    change (ep_obj o (ep_new (OReq k' (rq_stream r) (has_sub k') false) (drop_job i e)) = Some (OReq RC sid a b)) in X. apply obj_new in X. destruct X as [X|[_ X]]; [left; exists b; exact X|right].
    inversion X; subst k' sid. clear X. apply andb_prop in Ea. destruct Ea as [Ea _]. unfold dispatched, accepted in *. destruct (len (rq_metadata r) <? 8); [discriminate|].
    destruct (do_get RC reg _) as [h|]; [|discriminate]. do 2 eexists. left. reflexivity.
  - intros X. left. exact (Set1 (drop_job i e) o' s0 (sf_on_complete s0) eq_refl Ho X).
Qed.
Lemma view_called : forall x e e' ev, view reg sb client x e e' -> ep_trace e' = ep_trace e ++ ev -> forall o k sid p b, In (HCalled o k sid p b) ev ->
  sid = nth_id client (ep_ids e) /\ exists y, ev = [y].
Proof.
  intros x e e' ev V T oo kk ss pp bb.
  assert (Pick : forall ev', ep_trace e' = ep_trace e ++ ev' -> ev' = ev) by (intros ev' T'; rewrite T in T'; apply app_inv_head in T'; congruence).
  destruct V as [x e Hx|p input e|k' p input b' y e Hk|o' y i e Ho Hl|o' n0 s0 s' l e Ho Hs|o' n0 sid' a' e Ho|o' s0 e Ho|o' sid' a' e Ho|o' ev' s0 e Ho|o' sid' a' b' e Ho
    |s0 t ev' e Hev|r k' e Hk|r ev' e Hk Hev|r js e Hjs Hm|f e Hf Hg|f o' y e Hf Hg Ho Hsk|i k' r e e' Hj He|i o' n0 e Hj|i o' s0 e Hj Ho|i o' e Hj Ho];
    try (erewrite <- Pick by reflexivity; intros X; exfalso; destruct X as [X|X]; [discriminate X|]; apply in_sent in X; destruct X as (? & X & _); discriminate X).
  - rewrite <- (Pick []) by (symmetry; apply app_nil_r). intros [].
  - erewrite <- Pick by reflexivity. intros [X|[]]; discriminate.
  - erewrite <- Pick by reflexivity. intros [X|[]]. injection X as _ _ <- _ _. split; [reflexivity|eauto].
  - erewrite <- Pick by reflexivity. intros X. exfalso. destruct y; cbn in X; intuition discriminate.
  - erewrite <- Pick by reflexivity. intros [X|[]]; discriminate.
  - erewrite <- Pick by reflexivity. intros [X|[]]; discriminate.
  - rewrite <- (Pick []) by (symmetry; apply app_nil_r). intros [].
  - erewrite <- Pick by reflexivity. intros X. exfalso. destruct Hev as [->| ->]; cbn in X; intuition discriminate.
  - erewrite <- Pick by reflexivity. intros [X|[]]; discriminate.
  - erewrite <- Pick by reflexivity. intros X. exfalso. destruct Hev as [->| ->]; cbn in X; intuition discriminate.
  - erewrite <- Pick by reflexivity. intros [X|[]]; discriminate.
  - erewrite <- Pick by reflexivity. intros [X|[X|[]]]; discriminate.
  - rewrite <- (Pick (HRecv f :: map (HCall o') (passed y (calls_of f)))) by (destruct (closes f); reflexivity).
    intros [X|X]; [discriminate|]. apply in_map_iff in X. destruct X as (? & X & _). discriminate.
  - pose proof (handle_request_eq _ _ _ _ _ _ He) as E. change (len (ep_objs (drop_job i e))) with (len (ep_objs e)) in E.
    rewrite <- (Pick (dispatched reg k' r (len (ep_objs e)))) by (rewrite E; destruct (accepted reg k' r && opens k'); reflexivity).
    unfold dispatched, accepted in *. destruct (len (rq_metadata r) <? 8); [intros [X|[]]; discriminate|].
    destruct (do_get k' reg _) as [h|]; [|intros [X|[]]; discriminate]. destruct k'; intros X; exfalso; cbn in X; intuition discriminate.
  - erewrite <- Pick by reflexivity. intros [X|[]]; discriminate.
  - erewrite <- Pick by reflexivity. intros [X|[]]; discriminate.
  - rewrite <- (Pick []) by (symmetry; apply app_nil_r). intros [].
Qed.
End Views.

(** *** Invariant *)
Definition wanted (o : N) (n : Z) (e : ep) : Prop := In (HDemand o n) (ep_trace e) \/ In (JDemand o n) (ep_jobs e).
Record pull_ok (client : bool) (e : ep) : Prop := {
  po_mono : mono_ok client e;
  po_old : forall o n, wanted o n e -> o < len (ep_objs e);
  po_demand : forall o n s, wanted o n e -> ep_obj o e = Some (OFlux s) -> exists r, In (HRecv (FRequestN r)) (ep_trace e) /\ rn_stream r = rq_stream (sf_req s);
  po_served : forall o sid a b, ep_obj o e = Some (OReq RC sid a b) -> exists h p, In (HInvoke RC sid h p) (ep_trace e);
  po_pulled : forall r, In (HSent (FRequestN r)) (ep_trace e) -> N.odd (rn_stream r) = negb client -> exists h p, In (HInvoke RC (rn_stream r) h p) (ep_trace e);
  po_fresh : forall t1 o k sid p b t2, ep_trace e = t1 ++ HCalled o k sid p b :: t2 -> forall f, In (HSent f) t1 -> demand_frame f || input_frame f = true -> frame_stream f <> sid }.
Lemma pull_view : forall reg sb client x e e', good client e -> good client e' -> pull_ok client e -> (is_call x = true -> ep_ids e < 1073741823) ->
  (forall r, x = XFrame (FRequest r) -> N.odd (rq_stream r) = negb client) -> view reg sb client x e e' -> pull_ok client e'.
Proof.
  intros reg sb client x e e' G G' [M P1 P2 P3 P4 P5] Hc Hr V. destruct (view_grows _ _ _ _ _ _ V) as (ev & T & Rv).
  pose proof (view_demands reg sb client x e e' ev V T) as V1. pose proof (view_jobs reg sb client x e e' V) as V2.
  assert (Len : len (ep_objs e) <= len (ep_objs e')).
  { destruct V; try apply N.le_refl; cbn [ep_emit ep_new ep_set ep_objs with_ids add_jobs drop_job]; try (rewrite len_app; lia); unfold len; rewrite ?LookupProofs.upd_length; try lia.
    - destruct (closes f); apply N.le_refl.
    - rewrite (handle_request_eq _ _ _ _ _ _ H0). destruct (accepted reg k r && opens k); cbn; rewrite ?app_length; cbn; lia. }
  assert (W : forall o n, wanted o n e' -> wanted o n e \/ (exists r, x = XFrame (FRequestN r) /\ get_stream (rn_stream r) e = Some o) \/ exists k sid a b, ep_obj o e' = Some (OReq k sid a b)).
  { intros o n [H|H].
    - rewrite T in H. apply in_app_iff in H. destruct H as [H|H]; [left; now left|]. destruct (V1 o n H) as [H1|H1]; [left; now right|auto].
    - destruct (V2 o n H) as [H1|H1]; [left; now right|auto]. }
  constructor.
  - apply (mono_ok_view reg sb client x e); auto.
  - intros o n H. destruct (W o n H) as [H1|[(r & _ & H1)|(k & sid & a & b & H1)]].
    + specialize (P1 o n H1). lia.
    + destruct (registered_obj client _ _ e G (get_registered client _ _ e G H1)) as (y & Y & _). apply obj_lt in Y. lia.
    + exact (obj_lt _ _ _ H1).
  - intros o n s H Hs. destruct (W o n H) as [H1|[(r & -> & H1)|(k & sid & a & b & H1)]]; [| |congruence].
    + destruct (view_flux _ _ _ _ _ _ o s V Hs) as [(s0 & Hs0 & Es)|(L & _)]; [|specialize (P1 o n H1); lia].
      destruct (P2 o n s0 H1 Hs0) as (r & R1 & R2). exists r. rewrite T, in_app_iff. split; [now left|congruence].
    + exists r. split.
      * rewrite T, in_app_iff. right. assert (X : In (FRequestN r) (received ev)) by (rewrite Rv; now left). unfold received in X. apply in_flat_map in X. destruct X as (y & Y1 & Y2).
        destruct y; try destruct Y2. destruct H0. now subst. destruct H0.
      * destruct (registered_obj client _ _ e G (get_registered client _ _ e G H1)) as (y & Y1 & Y2).
        destruct (view_flux _ _ _ _ _ _ o s V Hs) as [(s0 & Hs0 & Es)|(L & Hn & _)]; [|congruence]. rewrite Hs0 in Y1. injection Y1 as <-. cbn in Y2. congruence.
  - intros o sid a b H. destruct (view_serves reg sb client x e e' ev V T o sid a b H) as [(b' & H1)|(h & p & H1)].
    + destruct (P3 o sid a b' H1) as (h & p & H2). exists h, p. rewrite T, in_app_iff. now left.
    + exists h, p. rewrite T, in_app_iff. now right.
  - intros r H O. rewrite T, in_app_iff in H. destruct H as [H|H].
    + destruct (P4 r H O) as (h & p & H2). exists h, p. rewrite T, in_app_iff. now left.
    + destruct (view_pulls reg sb client x e e' ev V T r H) as [(o & s & H1 & H2)|(o & a & H1)].
      * exfalso. destruct (g_loc client e G o _ _ H1 eq_refl) as (p & _ & P). rewrite H2, P, nth_id_odd in O. now destruct client.
      * destruct (P3 o _ a true H1) as (h & p & H2). exists h, p. rewrite T, in_app_iff. now left.
  - intros t1 o k sid p b t2 E. rewrite T in E. destruct (DemandProps.split_at2 _ _ _ _ _ _ E) as [(t & E1 & ->)|(t & -> & E1)]; [exact (P5 t1 o k sid p b t E1)|].
    assert (I : In (HCalled o k sid p b) ev) by (rewrite E1; apply in_app_iff; right; now left).
    destruct (view_called reg sb client x e e' ev V T o k sid p b I) as (Es & y & Ev). rewrite E1 in Ev. destruct t as [|z t]; [|destruct t; discriminate]. rewrite app_nil_r.
    intros f Hf Hw Hs. destruct (fo_ids client e (mo_flux client e M) f Hf Hw) as [Q|(q & Q1 & Q2)].
    + rewrite Hs, Es, nth_id_odd in Q. now destruct client.
    + rewrite Hs, Es in Q2. apply nth_id_inj in Q2. lia.
Qed.
Lemma history_pull : forall reg sb client l e, history reg sb client l e -> pull_ok client e /\ good client e.
Proof.
  intros reg sb client l e (H & C & P). apply (run_inv reg sb client (pull_ok client)) with (l := l); auto; [|apply pull_view|lia].
  constructor; [apply mono_ok_init|intros o n [[]|[]]|intros o n s [[]|[]]|intros o sid a b X; unfold ep_obj in X; cbn in X; destruct (N.to_nat o); discriminate|intros r []|].
  intros t1 o k sid p b t2 X. destruct t1; discriminate X.
Qed.
