(** For C94: what the flux behind a remote stream or channel call is given, at one end. *)
From Verif Require Import Base BaseFacts FramesModel WasmModel InvokeModel LookupModel HandlerModel HandlerFacts HandlerProps HandlerCallProps HandlerCrashProps JointModel JointFacts JointProps.

(** *** Specification: what a frame means for the stream it names, and which
    frames close it. *)
Definition carried (f : frame) : list scall :=
  match f with
  | FPayload p => (if pl_next p then [SNext {| py_data := pl_data p; py_meta := pl_metadata p |}] else []) ++ if pl_complete p then [SComplete] else []
  | FError x => [SError (er_data x); SComplete]
  | FCancel _ => [SComplete]
  | _ => []
  end.
Definition closing (f : frame) : bool :=
  match f with FPayload p => pl_complete p | FError _ | FCancel _ => true | _ => false end.
(** Nothing that concerns the caller follows a closing frame. *)
Fixpoint closed_last (fs : list frame) : Prop :=
  match fs with [] => True | f :: fs' => (closing f = true -> flat_map carried fs' = []) /\ closed_last fs' end.

Lemma carried_calls : forall f, carried f = calls_of f.
Proof. intros []; reflexivity. Qed.
Lemma closing_closes : forall f, closing f = closes f.
Proof. intros []; reflexivity. Qed.
Lemma carried_all : forall fs, flat_map carried fs = flat_map calls_of fs.
Proof. induction fs as [|f fs IH]; [reflexivity|]. cbn [flat_map]. now rewrite carried_calls, IH. Qed.
Lemma closed_last_app : forall fs gs, closed_last (fs ++ gs) -> closed_last fs /\ (flat_map calls_of gs <> [] -> Forall (fun f => closes f = false) fs).
Proof.
  induction fs as [|f fs IH]; intros gs H; [split; [exact I|constructor]|]. cbn [app closed_last] in *. destruct H as [H1 H2]. destruct (IH gs H2) as [A B].
  rewrite flat_map_app in H1. split.
  - split; [|exact A]. intros Hf. specialize (H1 Hf). apply app_eq_nil in H1. tauto.
  - intros Hg. constructor; [|auto]. rewrite <- closing_closes. destruct (closing f); [|reflexivity]. specialize (H1 eq_refl). apply app_eq_nil in H1.
    destruct H1 as [_ H1]. rewrite carried_all in H1. contradiction.
Qed.

(** *** What one operation passes on *)
Lemma got_calls : forall o o' ks, got o (map (HCall o') ks) = if o' =? o then ks else [].
Proof. intros o o' ks. induction ks as [|k ks IH]; cbn [map got flat_map]; [now destruct (o' =? o)|]. fold (got o (map (HCall o') ks)). rewrite IH. destruct (o' =? o); reflexivity. Qed.
Lemma got_sent : forall o l, got o (map HSent l) = [].
Proof. intros o l. induction l; auto. Qed.
Definition stream_goes (f : frame) (o : N) (e : ep) : bool :=
  on_stream f && match get_stream (frame_stream f) e with Some o' => o' =? o | None => false end.
Lemma view_passed : forall reg sb c x e e' ev o y, view reg sb c x e e' -> ep_trace e' = ep_trace e ++ ev -> ep_obj o e = Some y -> (forall r, y <> OMono r) ->
  got o ev = match x with XFrame f => if stream_goes f o e then calls_of f else [] | _ => [] end.
Proof.
  intros reg sb client x e e' ev o s V T Hs Hm0.
  assert (Pick : forall ev', ep_trace e' = ep_trace e ++ ev' -> ev' = ev) by (intros ev' T'; rewrite T in T'; apply app_inv_head in T'; congruence).
  destruct V as [x e Hx|p input e|k p input b y e Hk|o' y i e Ho Hl|o' n s0 s' l e Ho Hs0|o' n sid a e Ho|o' s0 e Ho|o' sid a e Ho|o' ev' s0 e Ho|o' sid a b e Ho
    |s0 t ev' e Hev|r k e Hk|r ev' e Hk Hev|r js e Hjs Hm|f e Hf Hg|f o' y e Hf Hg Ho Hsk|i k r e e' Hj He|i o' n e Hj|i o' s0 e Hj Ho|i o' e Hj Ho].
  - rewrite <- (Pick []) by (symmetry; apply app_nil_r). destruct x; try reflexivity. now destruct (Hx f).
  - erewrite <- Pick by reflexivity. reflexivity.
  - erewrite <- Pick by reflexivity. reflexivity.
  - erewrite <- Pick by reflexivity. destruct y; reflexivity.
  - erewrite <- Pick by reflexivity. apply got_sent.
  - erewrite <- Pick by reflexivity. reflexivity.
  - erewrite <- Pick by reflexivity. apply got_sent.
  - erewrite <- Pick by reflexivity. reflexivity.
  - erewrite <- Pick by reflexivity. apply got_sent.
  - rewrite <- (Pick []) by (symmetry; apply app_nil_r). reflexivity.
  - erewrite <- Pick by reflexivity. destruct Hev as [->| ->]; reflexivity.
  - erewrite <- Pick by reflexivity. reflexivity.
  - erewrite <- Pick by reflexivity. destruct Hev as [->| ->]; reflexivity.
  - erewrite <- Pick by reflexivity. reflexivity.
  - erewrite <- Pick by reflexivity. unfold stream_goes. rewrite Hg, andb_false_r. reflexivity.
  - rewrite <- (Pick (HRecv f :: map (HCall o') (passed y (calls_of f)))) by (destruct (closes f); reflexivity). unfold stream_goes. rewrite Hf, Hg. cbn [andb].
    change (got o (HRecv f :: map (HCall o') (passed y (calls_of f)))) with (got o (map (HCall o') (passed y (calls_of f)))). rewrite got_calls.
    destruct (o' =? o) eqn:E; [|reflexivity]. apply N.eqb_eq in E. subst o'. rewrite Hs in Ho. injection Ho as <-. destruct s as [r0| |]; [now destruct (Hm0 r0)|reflexivity..].
  - pose proof (handle_request_eq _ _ _ _ _ _ He) as E.
    rewrite <- (Pick (dispatched reg k r (len (ep_objs (drop_job i e))))) by (rewrite E; destruct (accepted reg k r && opens k); reflexivity).
    unfold dispatched. destruct (len (rq_metadata r) <? 8); [reflexivity|]. destruct (do_get k reg _); [destruct k|]; reflexivity.
  - erewrite <- Pick by reflexivity. reflexivity.
  - erewrite <- Pick by reflexivity. reflexivity.
  - rewrite <- (Pick []) by (symmetry; apply app_nil_r). reflexivity.
Qed.
Lemma view_got : forall reg sb c x e e' ev o s, view reg sb c x e e' -> ep_trace e' = ep_trace e ++ ev -> ep_obj o e = Some (OFlux s) ->
  got o ev = match x with XFrame f => if stream_goes f o e then calls_of f else [] | _ => [] end.
Proof. intros reg sb client x e e' ev o s V T Hs. apply (view_passed reg sb client x e e' ev o (OFlux s)); auto. discriminate. Qed.
(** Calls of this end become registered by a subscription only. *)
Lemma view_registers : forall reg sb c x e e' ev o y i, good c e -> good c e' -> view reg sb c x e e' -> ep_trace e' = ep_trace e ++ ev ->
  ep_obj o e' = Some y -> local_id y = Some i -> registered i o e' -> registered i o e \/ subscribed o ev = true.
Proof.
  intros reg sb client x e e' ev o y i G G' V T Hy Hl R.
  assert (Pick : forall ev', ep_trace e' = ep_trace e ++ ev' -> ev' = ev) by (intros ev' T'; rewrite T in T'; apply app_inv_head in T'; congruence).
  destruct V as [x e Hx|p input e|k p input b z e Hk|o' z i' e Ho Hl'|o' n s s' l e Ho Hs|o' n sid a e Ho|o' s e Ho|o' sid a e Ho|o' ev' s e Ho|o' sid a b e Ho
    |s t ev' e Hev|r k e Hk|r ev' e Hk Hev|r js e Hjs Hm|f e Hf Hg|f o' z e Hf Hg Ho Hsk|i' k r e e' Hj He|i' o' n e Hj|i' o' s e Hj Ho|i' o' e Hj Ho];
  try (left; exact R).
  - change (registered i o (register i' o' e)) in R. apply (registered_register client i' o' e i o G) in R. destruct R as [R|[_ ->]]; [now left|right].
    erewrite <- Pick by reflexivity. cbn. now rewrite N.eqb_refl.
  - left. destruct (closes f); [|exact R]. exact (proj1 (registered_remove client (frame_stream f) e i o G) R).
  - pose proof (handle_request_eq _ _ _ _ _ _ He) as E. left. destruct (accepted reg k r && opens k); rewrite E in *; [|exact R].
    set (e1 := drop_job i' e) in *. set (e2 := ep_new (OReq k (rq_stream r) (has_sub k) false) e1) in *.
    assert (G2 : good client e2).
    { apply good_new; [|discriminate|].
      - apply (good_same client e); auto; [apply N.le_refl|]. cbn [e1 drop_job ep_jobs]. intros w Hz. apply in_app_iff in Hz.
        rewrite <- (firstn_skipn i' (ep_jobs e)), in_app_iff. destruct Hz as [Hz|Hz]; [now left|right].
        rewrite skipn_S_tl in Hz. destruct (skipn i' (ep_jobs e)); [destruct Hz|now right].
      - intros k0 sid0 a0 b0 X. injection X as _ <- _ _. apply (g_jobs client e G k), (nth_error_In _ _ Hj). }
    change (registered i o (register (rq_stream r) (len (ep_objs e1)) e2)) in R. apply (registered_register client _ _ e2 i o G2) in R. destruct R as [R|[-> ->]]; [exact R|exfalso].
    change (ep_obj (len (ep_objs e1)) e2 = Some y) in Hy. unfold e2 in Hy. rewrite obj_new_new in Hy. injection Hy as <-. discriminate.
Qed.

(** *** Invariant *)
Record stream_at (o sid : N) (t : list hevent) (R : Prop) : Prop := {
  sa_no : subscribed o t = false -> ~ R /\ got o t = [];
  sa_sub : subseq (got o t) (flat_map calls_of (recvd sid t));
  sa_all : closed_last (recvd sid (after o t)) -> got o t = flat_map calls_of (recvd sid (after o t)) }.
Definition stream_ok (client : bool) (e : ep) : Prop := open_ok client e /\
  forall o s, ep_obj o e = Some (OFlux s) -> stream_at o (rq_stream (sf_req s)) (ep_trace e) (registered (rq_stream (sf_req s)) o e).
(** A flux after a step was one of the same stream before, or is new. *)
Lemma view_flux : forall reg sb c x e e' o s, view reg sb c x e e' -> ep_obj o e' = Some (OFlux s) ->
  (exists s0, ep_obj o e = Some (OFlux s0) /\ rq_stream (sf_req s0) = rq_stream (sf_req s)) \/
  (len (ep_objs e) <= o /\ ep_obj o e = None /\ is_call x = true).
Proof.
  intros reg sb client x e e' o s V Hs.
  assert (New : forall z e1, ep_obj o e1 = Some (OFlux s) -> ep_objs e1 = ep_objs e ++ [z] ->
    (exists s0, ep_obj o e = Some (OFlux s0) /\ rq_stream (sf_req s0) = rq_stream (sf_req s)) \/ (len (ep_objs e) <= o /\ ep_obj o e = None /\ z = OFlux s)).
  { intros z e1 H1 H2. unfold ep_obj in *. rewrite H2 in H1. destruct (nth_error (ep_objs e) (N.to_nat o)) as [w|] eqn:Ew.
    - rewrite nth_error_app1 in H1 by (apply nth_error_Some; congruence). rewrite Ew in H1. injection H1 as ->. left. eauto.
    - right. assert (L : (List.length (ep_objs e) <= N.to_nat o)%nat) by now apply nth_error_None. rewrite nth_error_app2 in H1 by exact L. split; [unfold len; lia|]. split; [reflexivity|].
      destruct (N.to_nat o - List.length (ep_objs e))%nat as [|[]]; cbn in H1; congruence. }
  assert (Upd : forall o' z w e1, ep_obj o e1 = Some (OFlux s) -> ep_objs e1 = upd (ep_objs e) (N.to_nat o') (fun _ => z) -> ep_obj o' e = Some w ->
    (z = OFlux s -> exists s0, w = OFlux s0 /\ rq_stream (sf_req s0) = rq_stream (sf_req s)) ->
    exists s0, ep_obj o e = Some (OFlux s0) /\ rq_stream (sf_req s0) = rq_stream (sf_req s)).
  { intros o' z w e1 H1 H2 H3 H4. unfold ep_obj in *. rewrite H2 in H1. destruct (Nat.eq_dec (N.to_nat o') (N.to_nat o)) as [X|X].
    - rewrite X in H1, H3. rewrite (LookupProofs.nth_upd_same _ _ _ _ _ H3) in H1. injection H1 as H1. destruct (H4 H1) as (s0 & -> & E). eauto.
    - rewrite LookupProofs.nth_upd_other in H1 by auto. eauto. }
  destruct V as [x e Hx|p input e|k p input b z e Hk|o' z i' e Ho Hl'|o' n s0 s' l e Ho Hs0|o' n sid a e Ho|o' s0 e Ho|o' sid a e Ho|o' ev' s0 e Ho|o' sid a b e Ho
    |s0 t ev' e Hev|r k e Hk|r ev' e Hk Hev|r js e Hjs Hm|f e Hf Hg|f o' z e Hf Hg Ho Hsk|i' k r e e' Hj He|i' o' n e Hj|i' o' s0 e Hj Ho|i' o' e Hj Ho];
  try (left; exists s; split; [exact Hs|reflexivity]).
  - destruct (New z _ Hs eq_refl) as [H|(H1 & H2 & _)]; [now left|right; auto].
  - left. eapply (Upd o' (OFlux s') (OFlux s0)); [exact Hs|reflexivity|exact Ho|]. intros E. injection E as <-. exists s0. split; [reflexivity|]. symmetry. exact (same_stream _ _ _ _ Hs0).
  - left. eapply (Upd o' (OReq RC sid a true) (OReq RC sid a b)); [exact Hs|reflexivity|exact Ho|discriminate].
  - left. exists s. split; [|reflexivity]. destruct (closes f); exact Hs.
  - pose proof (handle_request_eq _ _ _ _ _ _ He) as E. left. destruct (accepted reg k r && opens k); rewrite E in Hs.
    + destruct (New (OReq k (rq_stream r) (has_sub k) false) _ Hs eq_refl) as [H|(_ & _ & H)]; [exact H|discriminate].
    + exists s. split; [exact Hs|reflexivity].
  - left. eapply (Upd o' (OFlux (sf_on_complete s0)) (OFlux s0)); [exact Hs|reflexivity|exact Ho|]. intros E. injection E as <-. exists s0. auto.
Qed.
Lemma recvd_frame : forall sid ev f, received ev = [f] -> recvd sid ev = if frame_stream f =? sid then [f] else [].
Proof. intros sid ev f H. rewrite recvd_received, H. cbn. now destruct (frame_stream f =? sid). Qed.
Lemma after_received : forall o ev, received ev = [] -> received (after o ev) = [].
Proof.
  intros o ev. induction ev as [|x ev IH]; [reflexivity|]. cbn [received flat_map after]. intros H. apply app_eq_nil in H. destruct H as [_ H]. destruct (is_sub o x); auto.
Qed.
Lemma recvd_none : forall sid ev, received ev = [] -> recvd sid ev = [].
Proof. intros sid ev H. now rewrite recvd_received, H. Qed.
Lemma stream_view : forall reg sb client x e e', good client e -> good client e' -> stream_ok client e -> (is_call x = true -> ep_ids e < 1073741823) ->
  (forall r, x = XFrame (FRequest r) -> N.odd (rq_stream r) = negb client) -> view reg sb client x e e' -> stream_ok client e'.
Proof.
  intros reg sb client x e e' G G' [O S] Hc Hr V. split; [apply (open_view reg sb client x e); auto|]. intros o s' Ho.
  destruct (view_grows _ _ _ _ _ _ V) as (ev & T & Rv). destruct (view_events _ _ _ _ _ _ ev V T) as [E1 E2]. rewrite T.
  set (sid := rq_stream (sf_req s')) in *.
  assert (RG : registered sid o e' -> registered sid o e \/ subscribed o ev = true) by (intros R; exact (view_registers reg sb client x e e' ev o (OFlux s') sid G G' V T Ho eq_refl R)).
  destruct (view_flux _ _ _ _ _ _ o s' V Ho) as [(s & Hs & Es)|(L & Hn & Hx)]; [fold sid in Es|].
  - destruct (S o s Hs) as [A B C]. rewrite Es in A, B, C.
    pose proof (view_got _ _ _ _ _ _ ev o s V T Hs) as Gv.
    assert (Sub : subscribed o ev = true -> received ev = [] /\ got o ev = []).
    { intros H. split; [exact (E1 o H)|]. rewrite (E1 o H) in Rv. destruct x; auto. discriminate. }
    assert (Go : got o ev = [] \/ (exists f, x = XFrame f /\ frame_stream f = sid /\ registered sid o e /\ got o ev = calls_of f)).
    { destruct x as [| | | | | |f|]; auto. destruct (stream_goes f o e) eqn:Eg; [|now left]. right. exists f. split; [reflexivity|]. unfold stream_goes in Eg.
      apply andb_prop in Eg. destruct Eg as [_ Eg]. destruct (get_stream (frame_stream f) e) as [o'|] eqn:Eo; [|discriminate]. apply N.eqb_eq in Eg. subst o'.
      pose proof (get_registered client _ _ e G Eo) as Rg. destruct (registered_obj client _ _ e G Rg) as (y & Y1 & Y2). rewrite Hs in Y1. injection Y1 as <-. cbn in Y2.
      split; [congruence|]. split; [|exact Gv]. rewrite <- Y2, Es in Rg. exact Rg. }
    constructor.
    + rewrite subscribed_app, got_app. intros H. apply orb_false_iff in H. destruct H as [H1 H2]. destruct (A H1) as [A1 A2]. rewrite A2. split.
      * intros R. destruct (RG R) as [R'|R']; [contradiction|congruence].
      * destruct Go as [->|(f & _ & _ & R & _)]; [reflexivity|contradiction].
    + rewrite got_app, recvd_app, flat_map_app. destruct Go as [->|(f & -> & Ef & _ & ->)]; [rewrite app_nil_r; now apply subseq_more|].
      rewrite (recvd_frame sid ev f Rv), Ef, N.eqb_refl. cbn [flat_map]. rewrite app_nil_r. apply subseq_app; [exact B|apply subseq_refl].
    + rewrite after_app, got_app. destruct (subscribed o (ep_trace e)) eqn:X0.
      * rewrite recvd_app. intros H. destruct (closed_last_app _ _ H) as [H1 H2]. rewrite flat_map_app, (C H1). f_equal.
        destruct x as [| | | | | |f|]; try (rewrite Gv, (recvd_none sid ev Rv); reflexivity).
        rewrite (recvd_frame sid ev f Rv) in *. destruct (frame_stream f =? sid) eqn:Ef.
        -- apply N.eqb_eq in Ef. cbn [flat_map] in *. rewrite app_nil_r in *. destruct (calls_of f) as [|k0 ks0] eqn:Ek; [rewrite Gv; now destruct (stream_goes f o e)|].
           specialize (H2 ltac:(discriminate)). destruct O as [_ K].
           pose proof (K o (OFlux s) sid Hs ltac:(cbn; congruence) X0 H2) as R. destruct (registered_get client sid o e G R) as (o' & R1 & R2).
           pose proof (registered_local client e o (OFlux s) sid o' G Hs ltac:(cbn; congruence) R2) as ->. rewrite Gv. unfold stream_goes. rewrite Ef, R1, N.eqb_refl, andb_true_r.
           destruct f; try discriminate Ek; reflexivity.
        -- cbn. destruct Go as [Z|(f0 & E0 & E3 & _)]; [exact Z|]. injection E0 as <-. apply N.eqb_neq in Ef. contradiction.
      * destruct (A eq_refl) as [A1 A2]. rewrite A2. intros _. cbn [app]. destruct (subscribed o ev) eqn:X1.
        -- destruct (Sub eq_refl) as [Z1 Z2]. rewrite Z2, (recvd_none _ _ (after_received o ev Z1)). reflexivity.
        -- rewrite (after_none _ _ X1). destruct Go as [->|(f & _ & _ & R & _)]; [reflexivity|contradiction].
  - destruct O as [M _]. destruct (unseen_facts _ _ (mo_new client e M o L)) as [U1 U2].
    assert (Rn : received ev = []) by (destruct x; try discriminate; exact Rv).
    assert (M' : mono_ok client e') by (apply (mono_ok_view reg sb client x e); auto).
    assert (Gn : got o ev = [] /\ subscribed o ev = false).
    { destruct V; try discriminate Hx; try (exfalso; congruence); apply app_inv_head in T; subst ev; cbn; auto. }
    destruct Gn as [Gn Sn]. constructor.
    + intros _. rewrite got_app, U2, Gn. split; [|reflexivity]. intros R. destruct (RG R) as [R'|R']; [|congruence].
      destruct (registered_obj client _ _ e G R') as (y & Y1 & _). congruence.
    + rewrite got_app, U2, Gn. apply subseq_nil.
    + intros _. rewrite got_app, U2, Gn, after_app, U1, (after_none _ _ Sn). reflexivity.
Qed.
Lemma history_stream : forall reg sb client l e, history reg sb client l e -> stream_ok client e /\ good client e.
Proof.
  intros reg sb client l e (H & C & P). apply (run_inv reg sb client (stream_ok client)) with (l := l); auto; [|apply stream_view|lia].
  split; [split; [apply mono_ok_init|]|]; intros o y; intros; unfold ep_obj in *; cbn in *; destruct (N.to_nat o); discriminate.
Qed.
