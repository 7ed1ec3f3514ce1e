(** For C95: what the input of a served channel is given, at one end. *)
From Verif Require Import Base BaseFacts FramesModel WasmModel InvokeModel LookupModel HandlerModel HandlerFacts HandlerProps HandlerCallProps HandlerCrashProps JointModel JointFacts JointProps DemandProps StreamFacts.
From Coq Require Import Permutation.

(** *** Streams opened by the peer, counted *)
Definition cnt (s : N) (l : list N) : nat := count_occ N.eq_dec l s.
Lemma cnt_app : forall s a b, cnt s (a ++ b) = (cnt s a + cnt s b)%nat.
Proof. intros. apply count_occ_app. Qed.
Lemma cnt_perm : forall s a b, Permutation a b -> cnt s a = cnt s b.
Proof. intros s a b H. apply (Permutation_count_occ N.eq_dec). exact H. Qed.
Lemma cnt_one : forall s, cnt s [s] = 1%nat.
Proof. intros s. unfold cnt. cbn. destruct (N.eq_dec s s); congruence. Qed.
Lemma cnt_positions : forall s (l : list sobj) i j x y, (cnt s (flat_map oid l) <= 1)%nat -> nth_error l i = Some x -> nth_error l j = Some y ->
  oid x = [s] -> oid y = [s] -> i = j.
Proof.
  intros s. assert (In1 : forall l i x, nth_error l i = Some x -> oid x = [s] -> (1 <= cnt s (flat_map oid l))%nat).
  { induction l as [|z l IH]; intros i x H E; [destruct i; discriminate|]. cbn [flat_map]. rewrite cnt_app. destruct i as [|i]; cbn in H.
    - injection H as ->. rewrite E, cnt_one. lia.
    - specialize (IH i x H E). lia. }
  induction l as [|z l IH]; intros i j x y C Hi Hj Ex Ey; [destruct i; discriminate|]. cbn [flat_map] in C. rewrite cnt_app in C.
  destruct i as [|i], j as [|j]; cbn in Hi, Hj.
  - reflexivity.
  - injection Hi as ->. rewrite Ex, cnt_one in C. pose proof (In1 l j y Hj Ey). lia.
  - injection Hj as ->. rewrite Ey, cnt_one in C. pose proof (In1 l i x Hi Ex). lia.
  - f_equal. apply (IH i j x y); auto. lia.
Qed.
Lemma view_opened : forall reg sb c x e e' ev s, view reg sb c x e e' -> ep_trace e' = ep_trace e ++ ev ->
  (cnt s (opened e') <= cnt s (opened e) + cnt s (rids ev))%nat.
Proof.
  intros reg sb client x e e' ev s V T.
  assert (Pick : forall ev', ep_trace e' = ep_trace e ++ ev' -> ev' = ev) by (intros ev' T'; rewrite T in T'; apply app_inv_head in T'; congruence).
  assert (Same : forall e1, opened e1 = opened e -> (cnt s (opened e1) <= cnt s (opened e) + cnt s (rids ev))%nat) by (intros e1 ->; lia).
  destruct V as [x e Hx|p input e|k' p input b' y e Hk|o' y i e Ho Hl|o' n s0 s' l e Ho Hs|o' n sid' a' e Ho|o' s0 e Ho|o' sid' a' e Ho|o' ev' s0 e Ho|o' sid' a' b' e Ho
    |s0 t ev' e Hev|r k' e Hk|r ev' e Hk Hev|r js e Hjs Hm|f e Hf Hg|f o' y e Hf Hg Ho Hsk|i k' r e e' Hj He|i o' n e Hj|i o' s0 e Hj Ho|i o' e Hj Ho];
    try (apply Same; reflexivity).
  - change (opened (ep_emit ?l ?x)) with (opened x). rewrite (cnt_perm s _ _ (opened_new y (with_ids (ep_ids e + 1) e))), cnt_app.
    change (opened (with_ids (ep_ids e + 1) e)) with (opened e). replace (oid y) with (@nil N); [cbn; lia|].
    destruct Hk as [(_ & _ & ->)|[(_ & _ & ->)|(_ & _ & ->)]]; reflexivity.
  - apply Same. change (opened (ep_set o' (OFlux s') e) = opened e). eapply opened_set; eauto.
  - apply Same. eapply opened_set; eauto.
  - rewrite <- (Pick [HRecv (FRequest r)] eq_refl). change (opened (ep_emit ?l ?x)) with (opened x). rewrite opened_add, cnt_app. cbn. lia.
  - apply Same. change (opened (ep_emit ?l ?x)) with (opened x). rewrite opened_add. destruct Hjs as [->|(o & _ & ->)]; apply app_nil_r.
  - apply Same. transitivity (opened (add_jobs (settles o' y (calls_of f)) e)); [destruct (closes f); reflexivity|]. rewrite opened_add.
    replace (flat_map jid (settles o' y (calls_of f))) with (@nil N); [apply app_nil_r|]. unfold settles. destruct y; [reflexivity| |reflexivity].
    induction (filter is_complete (calls_of f)); auto.
  - pose proof (handle_request_eq _ _ _ _ _ _ He) as E. pose proof (cnt_perm s _ _ (opened_drop i e _ Hj)) as P. cbn [jid] in P. rewrite cnt_app in P.
    destruct (accepted reg k' r && opens k').
    + replace (opened e') with (opened (ep_new (OReq k' (rq_stream r) (has_sub k') false) (drop_job i e))) by (rewrite E; reflexivity).
      rewrite (cnt_perm s _ _ (opened_new _ _)), cnt_app. cbn [oid]. lia.
    + replace (opened e') with (opened (drop_job i e)) by (rewrite E; reflexivity). lia.
  - pose proof (cnt_perm s _ _ (opened_drop i e _ Hj)) as P. cbn [jid app] in P. change (opened (ep_emit ?l ?x)) with (opened x). lia.
  - pose proof (cnt_perm s _ _ (opened_drop i e _ Hj)) as P. cbn [jid app] in P. change (opened (ep_emit ?l ?x)) with (opened x).
    rewrite (opened_set o' (OFlux (sf_on_complete s0)) (OFlux s0) (drop_job i e)); [lia|exact Ho|reflexivity].
  - pose proof (cnt_perm s _ _ (opened_drop i e _ Hj)) as P. cbn [jid app] in P. lia.
Qed.
(** Where a channel handler is invoked, its stream is created and registered. *)
Lemma view_invokes : forall reg sb c x e e' ev, good c e -> view reg sb c x e e' -> ep_trace e' = ep_trace e ++ ev ->
  (forall sid h p, ~ In (HInvoke RC sid h p) ev) \/
  exists sid h p n, ev = [HInvoke RC sid h p; HDemand (len (ep_objs e)) n] /\ ep_obj (len (ep_objs e)) e' = Some (OReq RC sid true false) /\ registered sid (len (ep_objs e)) e'.
Proof.
  intros reg sb client x e e' ev G V T.
  assert (Pick : forall ev', ep_trace e' = ep_trace e ++ ev' -> ev' = ev) by (intros ev' T'; rewrite T in T'; apply app_inv_head in T'; congruence).
  assert (Snt : forall l sid h p, ~ In (HInvoke RC sid h p) (map HSent l)) by (intros l sid h p X; apply in_map_iff in X; destruct X as (? & X & _); discriminate).
  destruct V as [x e Hx|p input e|k' p input b' y e Hk|o' y i e Ho Hl|o' n s0 s' l e Ho Hs|o' n sid' a' e Ho|o' s0 e Ho|o' sid' a' e Ho|o' ev' s0 e Ho|o' sid' a' b' e Ho
    |s0 t ev' e Hev|r k' e Hk|r ev' e Hk Hev|r js e Hjs Hm|f e Hf Hg|f o' y e Hf Hg Ho Hsk|i k' r e e' Hj He|i o' n e Hj|i o' s0 e Hj Ho|i o' e Hj Ho].
  - left. rewrite <- (Pick []) by (symmetry; apply app_nil_r). auto.
  - left. erewrite <- Pick by reflexivity. intros ? ? ? [X|[]]; discriminate.
  - left. erewrite <- Pick by reflexivity. intros ? ? ? [X|[]]; discriminate.
  - left. erewrite <- Pick by reflexivity. destruct y; intros ? ? ? X; cbn in X; intuition discriminate.
  - left. erewrite <- Pick by reflexivity. intros ? ? ? [X|X]; [discriminate|exact (Snt _ _ _ _ X)].
  - left. erewrite <- Pick by reflexivity. intros ? ? ? [X|[]]; discriminate.
  - left. erewrite <- Pick by reflexivity. intros ? ? ? [X|X]; [discriminate|exact (Snt _ _ _ _ X)].
  - left. erewrite <- Pick by reflexivity. intros ? ? ? [X|[]]; discriminate.
  - left. erewrite <- Pick by reflexivity. intros ? ? ? [X|X]; [discriminate|exact (Snt _ _ _ _ X)].
  - left. rewrite <- (Pick []) by (symmetry; apply app_nil_r). auto.
  - left. erewrite <- Pick by reflexivity. intros ? ? ? X. destruct Hev as [->| ->]; cbn in X; intuition discriminate.
  - left. erewrite <- Pick by reflexivity. intros ? ? ? [X|[]]; discriminate.
  - left. erewrite <- Pick by reflexivity. intros ? ? ? X. destruct Hev as [->| ->]; cbn in X; intuition discriminate.
  - left. erewrite <- Pick by reflexivity. intros ? ? ? [X|[]]; discriminate.
  - left. erewrite <- Pick by reflexivity. intros ? ? ? [X|[X|[]]]; discriminate.
  - left. rewrite <- (Pick (HRecv f :: map (HCall o') (passed y (calls_of f)))) by (destruct (closes f); reflexivity).
    intros ? ? ? [X|X]; [discriminate|]. apply in_map_iff in X. destruct X as (? & X & _). discriminate.
  - pose proof (handle_request_eq _ _ _ _ _ _ He) as E. change (len (ep_objs (drop_job i e))) with (len (ep_objs e)) in E.
    rewrite <- (Pick (dispatched reg k' r (len (ep_objs e)))) by (rewrite E; destruct (accepted reg k' r && opens k'); reflexivity).
    unfold dispatched, accepted in *. destruct (len (rq_metadata r) <? 8); [left; intros ? ? ? [X|[]]; discriminate|].
    destruct (do_get k' reg _) as [h|]; [|left; intros ? ? ? [X|[]]; discriminate].
    destruct k'; [left; intros ? ? ? [X|[]]; discriminate|left; intros ? ? ? [X|[]]; discriminate|left; intros ? ? ? [X|[X|[]]]; discriminate|right].
    cbn [negb andb opens has_sub] in E. do 4 eexists. split; [reflexivity|].
    assert (G2 : good client (ep_new (OReq RC (rq_stream r) true false) (drop_job i e))).
    { apply good_new; [|discriminate|].
      - apply (good_same client e); auto; [apply N.le_refl|]. cbn [drop_job ep_jobs]. intros z Hz. apply in_app_iff in Hz.
        rewrite <- (firstn_skipn i (ep_jobs e)), in_app_iff. destruct Hz as [Hz|Hz]; [now left|right].
        rewrite skipn_S_tl in Hz. destruct (skipn i (ep_jobs e)); [destruct Hz|now right].
      - intros k0 sid0 a0 b0 X. injection X as _ <- _ _. apply (g_jobs client e G RC), (nth_error_In _ _ Hj). }
    rewrite E. split; [exact (obj_new_new (OReq RC (rq_stream r) true false) (drop_job i e))|].
    change (registered (rq_stream r) (len (ep_objs e)) (register (rq_stream r) (len (ep_objs e)) (ep_new (OReq RC (rq_stream r) true false) (drop_job i e)))).
    apply (registered_register client _ _ _ _ _ G2). now right.
  - left. erewrite <- Pick by reflexivity. intros ? ? ? [X|[]]; discriminate.
  - left. erewrite <- Pick by reflexivity. intros ? ? ? [X|[]]; discriminate.
  - left. rewrite <- (Pick []) by (symmetry; apply app_nil_r). auto.
Qed.

(** *** Invariant *)
Definition served_at (sid : N) (e : ep) (o : N) (t : list hevent) : Prop :=
  (exists b, ep_obj o e = Some (OReq RC sid true b)) /\ subseq (got o t) (flat_map calls_of (recvd sid t)) /\
  (Forall (fun f => closes f = false) (recvd sid t) -> registered sid o e) /\
  (closed_last (recvd sid t) -> got o t = flat_map calls_of (recvd sid t)).
Record channel_ok (client : bool) (e : ep) : Prop := {
  ch_mono : mono_ok client e;
  ch_count : forall s, (cnt s (opened e) <= cnt s (rids (ep_trace e)))%nat;
  ch_served : forall t1 sid h p t2, ep_trace e = t1 ++ HInvoke RC sid h p :: t2 -> (cnt sid (rids (ep_trace e)) <= 1)%nat ->
    exists o n t3, t2 = HDemand o n :: t3 /\ got o t1 = [] /\ served_at sid e o t3 }.
Lemma served_only : forall client e o sid a b, good client e -> (forall s, (cnt s (opened e) <= cnt s (rids (ep_trace e)))%nat) -> (cnt sid (rids (ep_trace e)) <= 1)%nat ->
  ep_obj o e = Some (OReq RC sid a b) -> registered sid o e -> get_stream sid e = Some o.
Proof.
  intros client e o sid a b G C One Ho R. destruct (registered_get client sid o e G R) as (o2 & H2 & R2). rewrite H2. f_equal.
  destruct (registered_obj client _ _ e G R2) as (y & Y1 & Y2). destruct y as [q|q|k2 sid2 a2 b2]; cbn in Y2.
  1,2: destruct (g_loc client e G o2 _ _ Y1 eq_refl) as (p & _ & P); cbn in P; pose proof (g_peer client e G _ _ _ _ _ Ho) as Q; rewrite <- Y2, P, nth_id_odd in Q; now destruct client.
  subst sid2. apply N2Nat.inj. eapply (cnt_positions sid (ep_objs e)); [|exact Y1|exact Ho|reflexivity|reflexivity].
  specialize (C sid). unfold opened in C. rewrite cnt_app in C. lia.
Qed.
Lemma channel_view : forall reg sb client x e e', good client e -> good client e' -> channel_ok client e -> (is_call x = true -> ep_ids e < 1073741823) ->
  (forall r, x = XFrame (FRequest r) -> N.odd (rq_stream r) = negb client) -> view reg sb client x e e' -> channel_ok client e'.
Proof.
  intros reg sb client x e e' G G' [M C S] Hc Hr V. destruct (view_grows _ _ _ _ _ _ V) as (ev & T & Rv).
  constructor; [apply (mono_ok_view reg sb client x e); auto| |].
  - intros s. rewrite T, rids_app, cnt_app. pose proof (view_opened _ _ _ _ _ _ ev s V T). specialize (C s). lia.
  - intros t1 sid h p t2 E One. rewrite T in E. rewrite T, rids_app, cnt_app in One. destruct (DemandProps.split_at2 _ _ _ _ _ _ E) as [(t & E1 & ->)|(t & -> & E1)].
    + destruct (S t1 sid h p t E1 ltac:(lia)) as (o & n & t3 & -> & G1 & (b & Ho) & A1 & A2 & A3). exists o, n, (t3 ++ ev). split; [reflexivity|]. split; [exact G1|].
      pose proof (view_passed _ _ _ _ _ _ ev o _ V T Ho ltac:(discriminate)) as Gv.
      assert (Go : got o ev = [] \/ (exists f, x = XFrame f /\ frame_stream f = sid /\ got o ev = calls_of f)).
      { destruct x as [| | | | | |f|]; auto. destruct (stream_goes f o e) eqn:Eg; [|now left]. right. exists f. split; [reflexivity|]. split; [|exact Gv]. unfold stream_goes in Eg.
        apply andb_prop in Eg. destruct Eg as [_ Eg]. destruct (get_stream (frame_stream f) e) as [o'|] eqn:Eo; [|discriminate]. apply N.eqb_eq in Eg. subst o'.
        pose proof (get_registered client _ _ e G Eo) as Rg. destruct (registered_obj client _ _ e G Rg) as (y & Y1 & Y2). rewrite Ho in Y1. injection Y1 as <-. symmetry. exact Y2. }
      split; [|split; [|split]].
      * destruct (view_objs _ _ _ _ _ _ V o RC sid true b Ho) as (b' & H1 & _). eauto.
      * rewrite got_app, recvd_app, flat_map_app. destruct Go as [->|(f & -> & Ef & ->)]; [rewrite app_nil_r; now apply subseq_more|].
        rewrite (recvd_frame sid ev f Rv), Ef, N.eqb_refl. cbn [flat_map]. rewrite app_nil_r. apply subseq_app; [exact A1|apply subseq_refl].
      * rewrite recvd_app, Forall_app. intros [F1 F2]. destruct (view_registered _ _ _ _ _ _ sid o G G' V (A2 F1)) as [R|(f & o' & z & -> & Z1 & Z2 & _)]; [exact R|exfalso].
        rewrite (recvd_frame sid ev f Rv), Z1, N.eqb_refl in F2. inversion F2. congruence.
      * rewrite got_app, recvd_app. intros H. destruct (closed_last_app _ _ H) as [H1 H2]. rewrite flat_map_app, (A3 H1). f_equal.
        destruct x as [| | | | | |f|]; try (rewrite Gv, (recvd_none sid ev Rv); reflexivity).
        rewrite (recvd_frame sid ev f Rv) in *. destruct (frame_stream f =? sid) eqn:Ef.
        -- apply N.eqb_eq in Ef. cbn [flat_map] in *. rewrite app_nil_r in *. destruct (calls_of f) as [|k0 ks0] eqn:Ek; [rewrite Gv; now destruct (stream_goes f o e)|].
           specialize (H2 ltac:(discriminate)). rewrite Gv. unfold stream_goes. rewrite Ef, (served_only client e o sid true b G C ltac:(lia) Ho (A2 H2)), N.eqb_refl, andb_true_r.
           destruct f; try discriminate Ek; reflexivity.
        -- cbn. destruct Go as [Z|(f0 & E0 & E3 & _)]; [exact Z|]. injection E0 as <-. apply N.eqb_neq in Ef. contradiction.
    + destruct (view_invokes _ _ _ _ _ _ ev G V T) as [N|(sid' & h' & p' & n & E2 & Ho & R)]; [exfalso; apply (N sid h p); rewrite E1; apply in_app_iff; right; now left|].
      rewrite E1 in E2. assert (t = [] /\ sid = sid' /\ t2 = [HDemand (len (ep_objs e)) n]) as (-> & -> & ->).
      { destruct t as [|y t]; cbn in E2; [injection E2 as -> _ _ ->; auto|]. injection E2 as _ E2. destruct t as [|z t]; cbn in E2; [discriminate|]. injection E2 as _ E2. now destruct t. }
      exists (len (ep_objs e)), n, []. split; [reflexivity|]. rewrite app_nil_r. split; [exact (proj2 (unseen_facts _ _ (mo_new client e M _ (N.le_refl _))))|].
      split; [eauto|]. split; [apply sub_nil|]. split; [auto|reflexivity].
Qed.
Lemma history_channel : forall reg sb client l e, history reg sb client l e -> channel_ok client e /\ good client e.
Proof.
  intros reg sb client l e (H & C & P). apply (run_inv reg sb client (channel_ok client)) with (l := l); auto; [|apply channel_view|lia].
  constructor; [apply mono_ok_init|intros s; apply Nat.le_refl|]. intros t1 sid h p t2 X. destruct t1; discriminate X.
Qed.
