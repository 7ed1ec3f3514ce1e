(** C63: frames that crash an end of a connection. *)
From Verif Require Import Base BaseFacts FramesModel WasmModel InvokeModel InvokeProofs LookupModel HandlerModel HandlerFacts HandlerProps HandlerCallProps.
From Coq Require Import Permutation.

(** Ids of the requests received. *)
Definition rids (t : list hevent) : list N := flat_map (fun x => match x with HRecv (FRequest r) => [rq_stream r] | _ => [] end) t.
Definition oid (x : sobj) : list N := match x with OReq _ sid _ _ => [sid] | _ => [] end.
Definition jid (j : job) : list N := match j with JHandle _ r => [rq_stream r] | _ => [] end.
Definition opened (e : ep) : list N := flat_map oid (ep_objs e) ++ flat_map jid (ep_jobs e).

Lemma rids_app : forall t u, rids (t ++ u) = rids t ++ rids u.
Proof. intros. apply flat_map_app. Qed.
Lemma nodup_app : forall A (a b : list A), NoDup (a ++ b) -> NoDup a /\ NoDup b /\ forall x, In x a -> ~ In x b.
Proof.
  induction a as [|x a IH]; intros b H; [cbn in *; repeat split; auto; constructor|]. cbn in H. inversion H as [|? ? H1 H2]. subst.
  destruct (IH b H2) as (I1 & I2 & I3). rewrite in_app_iff in H1. split; [constructor; tauto|]. split; [exact I2|].
  intros y [<-|Hy]; [tauto|auto].
Qed.
Lemma nodup_positions : forall (l : list sobj) i j x y s, NoDup (flat_map oid l) -> nth_error l i = Some x -> nth_error l j = Some y ->
  In s (oid x) -> In s (oid y) -> i = j.
Proof.
  induction l as [|z l IH]; intros i j x y s H Hi Hj Hx Hy; [destruct i; discriminate|]. cbn [flat_map] in H. apply nodup_app in H. destruct H as (_ & H2 & H3).
  destruct i as [|i], j as [|j]; cbn in Hi, Hj.
  - reflexivity.
  - injection Hi as ->. exfalso. apply (H3 s Hx). apply in_flat_map. exists y. split; [eapply nth_error_In; eauto|exact Hy].
  - injection Hj as ->. exfalso. apply (H3 s Hy). apply in_flat_map. exists x. split; [eapply nth_error_In; eauto|exact Hx].
  - f_equal. eapply IH; eauto.
Qed.
Lemma oid_upd : forall l i x y, nth_error l i = Some y -> oid x = oid y -> flat_map oid (upd l i (fun _ => x)) = flat_map oid l.
Proof.
  induction l as [|z l IH]; intros i x y H E; [destruct i; discriminate|]. destruct i as [|i]; cbn in *; [injection H as ->; now rewrite E|].
  now rewrite (IH i x y H E).
Qed.
Lemma opened_set : forall o x y e, ep_obj o e = Some y -> oid x = oid y -> opened (ep_set o x e) = opened e.
Proof. intros o x y e H E. unfold opened. cbn [ep_set ep_objs ep_jobs]. f_equal. exact (oid_upd _ _ _ _ H E). Qed.
Lemma opened_new : forall x e, Permutation (opened (ep_new x e)) (oid x ++ opened e).
Proof.
  intros x e. unfold opened. cbn [ep_new ep_objs ep_jobs]. rewrite flat_map_app. cbn [flat_map]. rewrite app_nil_r, !app_assoc. apply Permutation_app_tail, Permutation_app_comm.
Qed.
Lemma opened_add : forall js e, opened (add_jobs js e) = opened e ++ flat_map jid js.
Proof. intros. unfold opened. cbn [add_jobs ep_objs ep_jobs]. now rewrite flat_map_app, app_assoc. Qed.
Lemma opened_drop : forall i e j, nth_error (ep_jobs e) i = Some j -> Permutation (opened e) (jid j ++ opened (drop_job i e)).
Proof.
  intros i e j H. unfold opened. cbn [drop_job ep_jobs ep_objs]. apply nth_error_split in H. destruct H as (a & b & -> & <-).
  rewrite firstn_app, Nat.sub_diag, firstn_all. cbn [firstn]. rewrite app_nil_r.
  replace (skipn (S (List.length a)) (a ++ j :: b)) with b by (clear; induction a; [reflexivity|exact IHa]).
  rewrite !flat_map_app. cbn [flat_map]. rewrite (Permutation_app_comm (flat_map jid a) (jid j ++ flat_map jid b)), <- app_assoc.
  rewrite (Permutation_app_comm (flat_map jid b)). rewrite app_assoc. rewrite (Permutation_app_comm (flat_map oid (ep_objs e)) (jid j)). now rewrite <- app_assoc.
Qed.

(** Where a stream is registered, it stays registered until a frame on it is
    delivered that closes it. *)
Lemma view_registered : forall reg sb client x e e' sid o, good client e -> good client e' -> view reg sb client x e e' ->
  registered sid o e -> registered sid o e' \/
  exists f o' y, x = XFrame f /\ frame_stream f = sid /\ closes f = true /\ get_stream sid e = Some o' /\ ep_obj o' e = Some y /\ has_sink y = true.
Proof.
  intros reg sb client x e e' sid o G G' V R.
  destruct V as [x e Hx|p input e|k p input b y e Hk|o' y i e Ho Hl|o' n s s' l e Ho Hs|o' n sid' a e Ho|o' s e Ho|o' sid' a e Ho|o' ev s e Ho|o' sid' a b e Ho
    |s t ev e Hev|r k e Hk|r ev e Hk Hev|r js e Hjs Hm|f e Hf Hg|f o' y e Hf Hg Ho Hsk|i k r e e' Hj He|i o' n e Hj|i o' s e Hj Ho|i o' e Hj Ho];
  try (left; exact R).
  - left. change (registered sid o (register i o' e)). apply (registered_register client i o' e sid o G). now left.
  - destruct (closes f) eqn:Ec; [|left; exact R]. destruct (N.eq_dec sid (frame_stream f)) as [->|Ne].
    + right. exists f, o', y. repeat split; auto. apply Hsk. destruct f as [?|?|?|?|p|?]; try discriminate; cbn in Ec |- *. rewrite Ec. destruct (pl_next p); discriminate.
    + left. exact (proj2 (registered_remove client (frame_stream f) e sid o G) Ne R).
  - pose proof (handle_request_eq _ _ _ _ _ _ He) as E. left. destruct (accepted reg k r && opens k); rewrite E; [|exact R].
    set (e1 := drop_job i e) in *. set (e2 := ep_new (OReq k (rq_stream r) (has_sub k) false) e1).
    assert (G2 : good client e2).
    { apply good_new; [|discriminate|].
      - apply (good_same client e); auto; [apply N.le_refl|]. cbn [e1 drop_job ep_jobs]. intros z Hz. apply in_app_iff in Hz.
        rewrite <- (firstn_skipn i (ep_jobs e)), in_app_iff. destruct Hz as [Hz|Hz]; [now left|right].
        rewrite skipn_S_tl in Hz. destruct (skipn i (ep_jobs e)); [destruct Hz|now right].
      - intros k0 sid0 a0 b0 X. injection X as _ <- _ _. apply (g_jobs client e G k), (nth_error_In _ _ Hj). }
    change (registered sid o (register (rq_stream r) (len (ep_objs e1)) e2)). apply (registered_register client _ _ e2 sid o G2). now left.
Qed.

Record serve_ok (client : bool) (e : ep) : Prop := {
  so_ids : NoDup (rids (ep_trace e)) -> NoDup (opened e) /\ incl (opened e) (rids (ep_trace e));
  so_reg : NoDup (rids (ep_trace e)) -> forall o k sid a, ep_obj o e = Some (OReq k sid a false) -> registered sid o e;
  so_inv : forall k sid h p, In (HInvoke k sid h p) (ep_trace e) -> k <> RR ->
    exists o b, ep_obj o e = Some (OReq k sid (has_sub k) b) /\ (b = false \/ k = RC) }.

(** The objects: they are kept, and new ones come with their request. *)
Lemma view_objs : forall reg sb client x e e', view reg sb client x e e' ->
  forall o k sid a b, ep_obj o e = Some (OReq k sid a b) -> exists b', ep_obj o e' = Some (OReq k sid a b') /\ (b' = b \/ (k = RC /\ b' = true)).
Proof.
  intros reg sb client x e e' V o k sid a b H.
  assert (New : forall z e1, ep_objs e1 = ep_objs e ++ [z] -> exists b', ep_obj o e1 = Some (OReq k sid a b') /\ (b' = b \/ (k = RC /\ b' = true))).
  { intros z e1 E. exists b. split; [|now left]. unfold ep_obj in *. rewrite E, nth_error_app1; [exact H|]. apply nth_error_Some. congruence. }
  assert (Set1 : forall o' s z e1, ep_objs e1 = upd (ep_objs e) (N.to_nat o') (fun _ => z) -> ep_obj o' e = Some (OFlux s) ->
    exists b', ep_obj o e1 = Some (OReq k sid a b') /\ (b' = b \/ (k = RC /\ b' = true))).
  { intros o' s z e1 E Ho. exists b. split; [|now left]. unfold ep_obj in *. rewrite E. destruct (Nat.eq_dec (N.to_nat o') (N.to_nat o)) as [X|X]; [rewrite X in Ho; congruence|].
    now rewrite LookupProofs.nth_upd_other. }
  destruct V as [x e Hx|p input e|k' p input b' y e Hk|o' y i e Ho Hl|o' n s s' l e Ho Hs|o' n sid' a' e Ho|o' s e Ho|o' sid' a' e Ho|o' ev s e Ho|o' sid' a' b' e Ho
    |s t ev e Hev|r k' e Hk|r ev e Hk Hev|r js e Hjs Hm|f e Hf Hg|f o' y e Hf Hg Ho Hsk|i k' r e e' Hj He|i o' n e Hj|i o' s e Hj Ho|i o' e Hj Ho];
  try (exists b; split; [exact H|now left]).
  - apply (New y). reflexivity.
  - apply (Set1 o' s (OFlux s')); [reflexivity|exact Ho].
  - destruct (N.eq_dec o' o) as [->|Ne].
    + rewrite H in Ho. injection Ho as -> -> -> ->. exists true. split; [|now right]. eapply obj_set_same; eauto.
    + exists b. split; [|now left]. now rewrite obj_set_other.
  - exists b. split; [|now left]. destruct (closes f); exact H.
  - pose proof (handle_request_eq _ _ _ _ _ _ He) as E. destruct (accepted reg k' r && opens k'); rewrite E.
    + apply (New (OReq k' (rq_stream r) (has_sub k') false)). reflexivity.
    + exists b. split; [exact H|now left].
  - apply (Set1 o' s (OFlux (sf_on_complete s))); [reflexivity|exact Ho].
Qed.

Lemma serve_init : forall client, serve_ok client ep_init.
Proof.
  intros client. constructor; [intros _; split; [constructor|apply incl_refl]| |intros k sid h p []].
  intros _ o k sid a H. unfold ep_obj in H. cbn in H. destruct (N.to_nat o); discriminate.
Qed.
Lemma serve_view : forall reg sb client x e e', good client e -> good client e' -> serve_ok client e -> (is_call x = true -> ep_ids e < 1073741823) ->
  (forall r, x = XFrame (FRequest r) -> N.odd (rq_stream r) = negb client) -> view reg sb client x e e' -> serve_ok client e'.
Proof.
  intros reg sb client x e e' G G' S Hc Hr V.
  pose proof (view_objs _ _ _ _ _ _ V) as VO.
  pose proof (fun sid o => view_registered _ _ _ _ _ _ sid o G G' V) as VR.
  (* the ids *)
  assert (Tr : exists ev, ep_trace e' = ep_trace e ++ ev /\
    (forall k sid h p, In (HInvoke k sid h p) ev -> k <> RR -> exists o b, ep_obj o e' = Some (OReq k sid (has_sub k) b) /\ (b = false \/ k = RC)) /\
    ((exists s1 s2, Permutation (opened e) (s1 ++ s2) /\ Permutation (opened e') s2) \/
     exists r, x = XFrame (FRequest r) /\ rids ev = [rq_stream r] /\ opened e' = opened e ++ [rq_stream r]) /\
    (forall o k sid a, ep_obj o e' = Some (OReq k sid a false) -> ep_obj o e = Some (OReq k sid a false) \/ registered sid o e')).
  { assert (Same : forall e1, opened e1 = opened e -> exists s1 s2, Permutation (opened e) (s1 ++ s2) /\ Permutation (opened e1) s2).
    { intros e1 E. exists [], (opened e). rewrite E. split; apply Permutation_refl. }
    assert (Set1 : forall o' y z, ep_obj o' e = Some y -> oid z = [] -> oid y = [] -> opened (ep_set o' z e) = opened e /\
      forall o k sid a, ep_obj o (ep_set o' z e) = Some (OReq k sid a false) -> ep_obj o e = Some (OReq k sid a false)).
    { intros o' y z Ho E1 E2. split; [eapply opened_set; eauto; congruence|]. intros o k sid a H. destruct (N.eq_dec o' o) as [->|Ne]; [|now rewrite obj_set_other in H].
      rewrite (obj_set_same o z e y Ho) in H. injection H as ->. discriminate. }
    clear VO VR.
    destruct V as [x e Hx|p input e|k' p input b' y e Hk|o' y i e Ho Hl|o' n s s' l e Ho Hs|o' n sid' a' e Ho|o' s e Ho|o' sid' a' e Ho|o' ev s e Ho|o' sid' a' b' e Ho
      |s t ev e Hev|r k' e Hk|r ev e Hk Hev|r js e Hjs Hm|f e Hf Hg|f o' y e Hf Hg Ho Hsk|i k' r e e' Hj He|i o' n e Hj|i o' s e Hj Ho|i o' e Hj Ho].
    - exists []. rewrite app_nil_r. split; [reflexivity|]. split; [intros ? ? ? ? []|]. split; [left; now apply Same|auto].
    - eexists. split; [reflexivity|]. split; [intros ? ? ? ? [X|[]]; discriminate|]. split; [left; now apply Same|auto].
    - eexists. split; [reflexivity|]. split; [intros ? ? ? ? [X|[]]; discriminate|]. split.
      + left. exists [], (opened e). split; [apply Permutation_refl|]. change (Permutation (opened (ep_new y (with_ids (ep_ids e + 1) e))) (opened e)). rewrite opened_new.
        destruct Hk as [(_ & _ & ->)|[(_ & _ & ->)|(_ & _ & ->)]]; apply Permutation_refl.
      + intros o k sid a H. left. change (ep_obj o (ep_new y (with_ids (ep_ids e + 1) e)) = Some (OReq k sid a false)) in H. apply obj_new in H.
        destruct H as [H|[_ H]]; [exact H|]. destruct Hk as [(_ & _ & ->)|[(_ & _ & ->)|(_ & _ & ->)]]; discriminate.
    - eexists. split; [reflexivity|]. split; [intros ? ? ? ? [X|X]; [discriminate|]; destruct y; [destruct X as [X|[]]; discriminate|destruct X..]|]. split; [left; now apply Same|auto].
    - eexists. split; [reflexivity|]. split; [intros ? ? ? ? [X|X]; [discriminate|]; apply in_map_iff in X; destruct X as (? & X & _); discriminate|].
      destruct (Set1 o' _ (OFlux s') Ho eq_refl eq_refl) as [A B]. split; [left; apply Same; exact A|]. intros. left. eapply B; eauto.
    - eexists. split; [reflexivity|]. split; [intros ? ? ? ? [X|[]]; discriminate|]. split; [left; now apply Same|auto].
    - eexists. split; [reflexivity|]. split; [intros ? ? ? ? [X|X]; [discriminate|]; apply in_map_iff in X; destruct X as (? & X & _); discriminate|]. split; [left; now apply Same|auto].
    - eexists. split; [reflexivity|]. split; [intros ? ? ? ? [X|[]]; discriminate|]. split; [left; now apply Same|auto].
    - eexists. split; [reflexivity|]. split; [intros ? ? ? ? [X|X]; [discriminate|]; apply in_map_iff in X; destruct X as (? & X & _); discriminate|]. split; [left; now apply Same|auto].
    - exists []. rewrite app_nil_r. split; [reflexivity|]. split; [intros ? ? ? ? []|]. split; [left; apply Same; eapply opened_set; eauto; reflexivity|].
      intros o k sid a H. left. destruct (N.eq_dec o' o) as [->|Ne]; [|now rewrite obj_set_other in H]. rewrite (obj_set_same o _ e _ Ho) in H. discriminate.
    - eexists. split; [reflexivity|]. split; [intros ? ? ? ? [X|X]; [discriminate|]; destruct Hev as [->| ->]; [destruct X|destruct X as [X|[]]; discriminate]|]. split; [left; now apply Same|auto].
    - eexists. split; [reflexivity|]. split; [intros ? ? ? ? [X|[]]; discriminate|]. split; [|auto]. right. exists r. split; [reflexivity|]. split; [reflexivity|].
      change (opened (ep_emit ?l ?x)) with (opened x). rewrite opened_add. reflexivity.
    - eexists. split; [reflexivity|]. split; [intros ? ? ? ? [X|X]; [discriminate|]; destruct Hev as [->| ->]; [destruct X|destruct X as [X|[]]; discriminate]|]. split; [left; now apply Same|auto].
    - eexists. split; [reflexivity|]. split; [intros ? ? ? ? [X|[]]; discriminate|]. split; [|auto]. left. apply Same. change (opened (ep_emit ?l ?x)) with (opened x). rewrite opened_add.
      destruct Hjs as [->|(o & _ & ->)]; apply app_nil_r.
    - eexists. split; [reflexivity|]. split; [intros ? ? ? ? [X|[X|[]]]; discriminate|]. split; [left; now apply Same|auto].
    - exists (HRecv f :: map (HCall o') (passed y (calls_of f))). split; [destruct (closes f); reflexivity|].
      split; [intros ? ? ? ? [X|X]; [discriminate|]; apply in_map_iff in X; destruct X as (? & X & _); discriminate|]. split.
      + left. apply Same. transitivity (opened (add_jobs (settles o' y (calls_of f)) e)); [destruct (closes f); reflexivity|]. rewrite opened_add.
        replace (flat_map jid (settles o' y (calls_of f))) with (@nil N); [apply app_nil_r|]. unfold settles. destruct y; [reflexivity| |reflexivity].
        induction (filter is_complete (calls_of f)); auto.
      + intros o k sid a H. left. destruct (closes f); exact H.
    - pose proof (handle_request_eq _ _ _ _ _ _ He) as E. set (e1 := drop_job i e) in *. pose proof (opened_drop i e _ Hj) as P. cbn [jid app] in P. fold e1 in P.
      exists (dispatched reg k' r (len (ep_objs e1))). split; [rewrite E; destruct (accepted reg k' r && opens k'); reflexivity|].
      set (e2 := ep_new (OReq k' (rq_stream r) (has_sub k') false) e1) in *.
      assert (Hd : forall k sid h p, In (HInvoke k sid h p) (dispatched reg k' r (len (ep_objs e1))) -> k = k' /\ sid = rq_stream r /\ accepted reg k' r = true).
      { intros k sid h p. unfold dispatched, accepted. destruct (len (rq_metadata r) <? 8); [intros [X|[]]; discriminate|].
        destruct (do_get k' reg _); [|intros [X|[]]; discriminate]. cbn [negb andb]. destruct k'; intros [X|X]; try (destruct X as [X|[]]); try discriminate; try (injection X as <- <- _ _; auto); destruct X. }
      split; [|split].
      + intros k sid h p X N. destruct (Hd k sid h p X) as (-> & -> & A). rewrite A in E. assert (Op : opens k' = true) by (destruct k'; auto; contradiction).
        rewrite Op in E. cbn [andb] in E. exists (len (ep_objs e1)), false. split; [|now left]. rewrite E. exact (obj_new_new (OReq k' (rq_stream r) (has_sub k') false) e1).
      + left. destruct (accepted reg k' r && opens k').
        * exists [], (opened e). split; [apply Permutation_refl|]. rewrite P. replace (opened e') with (opened e2) by (rewrite E; reflexivity). exact (opened_new (OReq k' (rq_stream r) (has_sub k') false) e1).
        * exists [rq_stream r], (opened e1). split; [exact P|]. rewrite E. apply Permutation_refl.
      + intros o k sid a H. destruct (accepted reg k' r && opens k').
        * rewrite E in H. change (ep_obj o e2 = Some (OReq k sid a false)) in H. apply obj_new in H. destruct H as [H|[-> H]]; [left; exact H|]. right. injection H as _ Hs _. rewrite Hs.
          rewrite E. assert (G2 : good client e2).
          { apply good_new; [|discriminate|].
            - apply (good_same client e); auto; [apply N.le_refl|]. cbn [e1 drop_job ep_jobs]. intros z Hz. apply in_app_iff in Hz.
              rewrite <- (firstn_skipn i (ep_jobs e)), in_app_iff. destruct Hz as [Hz|Hz]; [now left|right].
              rewrite skipn_S_tl in Hz. destruct (skipn i (ep_jobs e)); [destruct Hz|now right].
            - intros k0 sid0 a0 b0 X. injection X as _ <- _ _. apply (g_jobs client e G k'), (nth_error_In _ _ Hj). }
          change (registered (rq_stream r) (len (ep_objs e1)) (register (rq_stream r) (len (ep_objs e1)) e2)). apply (registered_register client _ _ e2 _ _ G2). now right.
        * left. rewrite E in H. exact H.
    - pose proof (opened_drop i e _ Hj) as P. cbn [jid app] in P. eexists. split; [reflexivity|]. split; [intros ? ? ? ? [X|[]]; discriminate|]. split; [|auto].
      left. exists [], (opened (drop_job i e)). split; [exact P|apply Permutation_refl].
    - pose proof (opened_drop i e _ Hj) as P. cbn [jid app] in P. eexists. split; [reflexivity|]. split; [intros ? ? ? ? [X|[]]; discriminate|].
      destruct (Set1 o' _ (OFlux (sf_on_complete s)) Ho eq_refl eq_refl) as [A B]. split.
      + left. exists [], (opened e). split; [apply Permutation_refl|]. rewrite P. change (Permutation (opened (ep_set o' (OFlux (sf_on_complete s)) (drop_job i e))) (opened (drop_job i e))).
        rewrite (opened_set o' (OFlux (sf_on_complete s)) (OFlux s) (drop_job i e)); [apply Permutation_refl|exact Ho|reflexivity].
      + intros o k sid a H. left. apply (B o k sid a H).
    - pose proof (opened_drop i e _ Hj) as P. cbn [jid app] in P. exists []. rewrite app_nil_r. split; [reflexivity|]. split; [intros ? ? ? ? []|]. split; [|auto].
      left. exists [], (opened (drop_job i e)). split; [exact P|apply Permutation_refl]. }
  destruct Tr as (ev & T & TI & TO & TR). constructor; rewrite T.
  - rewrite rids_app. intros ND. apply nodup_app in ND. destruct ND as (N1 & N2 & N3). destruct (so_ids client e S N1) as [S1 S2].
    destruct TO as [(s1 & s2 & P1 & P2)|(r & -> & E1 & E2)].
    + assert (ND2 : NoDup (s1 ++ s2)) by (eapply Permutation_NoDup; eauto). apply nodup_app in ND2. destruct ND2 as (_ & ND2 & _).
      split; [eapply Permutation_NoDup; [symmetry; exact P2|exact ND2]|]. intros z Hz. apply in_app_iff. left. apply S2. eapply Permutation_in; [symmetry; exact P1|].
      apply in_app_iff. right. eapply Permutation_in; [exact P2|exact Hz].
    + rewrite E2, E1. split.
      * eapply Permutation_NoDup; [apply Permutation_app_comm|]. cbn. constructor; [|exact S1]. intros X. apply S2 in X. apply (N3 _ X). rewrite E1. now left.
      * apply incl_app; [now apply incl_appl|now apply incl_appr, incl_refl].
  - rewrite rids_app. intros ND o k sid a H. apply nodup_app in ND. destruct ND as (N1 & _ & _). destruct (so_ids client e S N1) as [S1 _].
    destruct (TR o k sid a H) as [H1|H1]; [|exact H1]. pose proof (so_reg client e S N1 o k sid a H1) as R.
    destruct (VR sid o R) as [H2|(f & o' & y & -> & F1 & F2 & F3 & F4 & F5)]; [exact H2|]. exfalso.
    assert (Ry := get_registered client _ _ e G F3). destruct (registered_obj client _ _ e G Ry) as (y' & Y1 & Y2). rewrite F4 in Y1. injection Y1 as <-.
    destruct y as [q|q|k2 sid2 a2 b2]; cbn in Y2.
    1,2: destruct (g_loc client e G o' _ _ F4 eq_refl) as (p & _ & P); cbn in P; pose proof (g_peer client e G _ _ _ _ _ H1) as Q; rewrite <- Y2, P, nth_id_odd in Q; now destruct client.
    subst sid2. apply nodup_app in S1. destruct S1 as (S1 & _ & _).
    assert (X : N.to_nat o = N.to_nat o').
    { eapply (nodup_positions (ep_objs e)); [exact S1|exact H1|exact F4|now left|now left]. }
    apply N2Nat.inj in X. subst o'. rewrite F4 in H1. injection H1 as _ _ ->. discriminate F5.
  - intros k sid h p H Nk. apply in_app_iff in H. destruct H as [H|H]; [|now apply (TI k sid h p)].
    destruct (so_inv client e S k sid h p H Nk) as (o & b & H1 & H2). destruct (VO o k sid _ b H1) as (b' & H3 & H4). exists o, b'. split; [exact H3|].
    destruct H4 as [->|[-> _]]; auto.
Qed.
Lemma history_serve : forall reg sb client l e, history reg sb client l e -> serve_ok client e /\ good client e.
Proof.
  intros reg sb client l e (H & C & P). apply (run_inv reg sb client (serve_ok client) (serve_init client) (serve_view reg sb client) l e); auto. lia.
Qed.

(** ** Calls of this end stay open until the peer closes them *)
Definition open_ok (client : bool) (e : ep) : Prop := mono_ok client e /\
  forall o y i, ep_obj o e = Some y -> local_id y = Some i -> subscribed o (ep_trace e) = true ->
    Forall (fun f => closes f = false) (recvd i (after o (ep_trace e))) -> registered i o e.
Lemma recvd_in : forall f t, In (HRecv f) t -> In f (recvd (frame_stream f) t).
Proof.
  intros f t H. unfold recvd. apply in_flat_map. exists (HRecv f). split; [exact H|]. cbn. rewrite N.eqb_refl. now left.
Qed.
Lemma not_subscribed : forall o t, (forall x, In x t -> x <> HSubscribed o) -> subscribed o t = false.
Proof.
  intros o t H. unfold subscribed. apply not_true_is_false. intros E. apply existsb_exists in E. destruct E as (x & X1 & X2). apply (H x X1).
  destruct x; try discriminate. cbn in X2. apply N.eqb_eq in X2. now subst.
Qed.
Lemma open_view : forall reg sb client x e e', good client e -> good client e' -> open_ok client e -> (is_call x = true -> ep_ids e < 1073741823) ->
  (forall r, x = XFrame (FRequest r) -> N.odd (rq_stream r) = negb client) -> view reg sb client x e e' -> open_ok client e'.
Proof.
  intros reg sb client x e e' G G' [M K] Hc Hr V.
  assert (M' : mono_ok client e') by (apply (mono_ok_view reg sb client x e); auto). split; [exact M'|]. intros o y i Hy Hl Hs Hf.
  pose proof (view_registered _ _ _ _ _ _ i o G G' V) as VR.
  assert (Tr : exists ev, ep_trace e' = ep_trace e ++ ev /\ (forall f, x = XFrame f -> In (HRecv f) ev) /\
    (subscribed o ev = true -> registered i o e') /\ (ep_obj o e = None \/ exists y', ep_obj o e = Some y' /\ local_id y' = Some i)).
  { assert (Old : forall e1, ep_obj o e1 = Some y -> ep_objs e1 = ep_objs e -> ep_obj o e = None \/ exists y', ep_obj o e = Some y' /\ local_id y' = Some i).
    { intros e1 H1 H2. right. exists y. unfold ep_obj in *. rewrite H2 in H1. auto. }
    assert (New : forall e1 z, ep_obj o e1 = Some y -> ep_objs e1 = ep_objs e ++ [z] -> ep_obj o e = None \/ exists y', ep_obj o e = Some y' /\ local_id y' = Some i).
    { intros e1 z H1 H2. unfold ep_obj in *. rewrite H2 in H1. destruct (nth_error (ep_objs e) (N.to_nat o)) as [w|] eqn:Ew; [|now left]. right.
      rewrite nth_error_app1 in H1 by (apply nth_error_Some; congruence). rewrite Ew in H1. injection H1 as ->. eauto. }
    assert (Upd : forall e1 o' z w, ep_obj o e1 = Some y -> ep_objs e1 = upd (ep_objs e) (N.to_nat o') (fun _ => z) -> ep_obj o' e = Some w -> (z = y -> local_id w = Some i) ->
      ep_obj o e = None \/ exists y', ep_obj o e = Some y' /\ local_id y' = Some i).
    { intros e1 o' z w H1 H2 H3 H4. right. unfold ep_obj in *. rewrite H2 in H1. destruct (Nat.eq_dec (N.to_nat o') (N.to_nat o)) as [X|X].
      - rewrite X in H1, H3. rewrite (LookupProofs.nth_upd_same _ _ _ _ _ H3) in H1. injection H1 as ->. eauto.
      - rewrite LookupProofs.nth_upd_other in H1 by auto. eauto. }
    clear VR Hf Hs.
    destruct V as [x e Hx|p input e|k' p input b' z e Hk|o' z i' e Ho Hl'|o' n s s' l e Ho Hs|o' n sid' a' e Ho|o' s e Ho|o' sid' a' e Ho|o' ev s e Ho|o' sid' a' b' e Ho
      |s t ev e Hev|r k' e Hk|r ev e Hk Hev|r js e Hjs Hm|f e Hf Hg|f o' z e Hf Hg Ho Hsk|i' k' r e e' Hj He|i' o' n e Hj|i' o' s e Hj Ho|i' o' e Hj Ho].
    - exists []. rewrite app_nil_r. split; [reflexivity|]. split; [intros f ->; now destruct (Hx f)|]. split; [discriminate|now apply (Old e)].
    - eexists. split; [reflexivity|]. split; [discriminate|]. split; [discriminate|eapply Old; [exact Hy|reflexivity]].
    - eexists. split; [reflexivity|]. split; [discriminate|]. split; [discriminate|]. eapply New; [exact Hy|reflexivity].
    - eexists. split; [reflexivity|]. split; [discriminate|]. split; [|eapply Old; [exact Hy|reflexivity]].
      cbn [subscribed existsb is_sub]. destruct (o' =? o) eqn:Eo.
      + intros _. apply N.eqb_eq in Eo. subst o'. change (ep_obj o e = Some y) in Hy. rewrite Ho in Hy. injection Hy as ->. rewrite Hl in Hl'. injection Hl' as <-.
        change (registered i o (register i o e)). apply (registered_register client i o e i o G). now right.
      + destruct z; discriminate.
    - eexists. split; [reflexivity|]. split; [discriminate|]. split.
      + rewrite not_subscribed; [discriminate|]. intros z [<-|Hz]; [discriminate|]. apply in_map_iff in Hz. destruct Hz as (? & <- & _). discriminate.
      + eapply (Upd _ o' (OFlux s') (OFlux s)); [exact Hy|reflexivity|exact Ho|]. intros <-. cbn in Hl |- *. now rewrite <- (same_stream _ _ _ _ Hs).
    - eexists. split; [reflexivity|]. split; [discriminate|]. split; [discriminate|eapply Old; [exact Hy|reflexivity]].
    - eexists. split; [reflexivity|]. split; [discriminate|]. split; [|eapply Old; [exact Hy|reflexivity]].
      rewrite not_subscribed; [discriminate|]. intros z [<-|Hz]; [discriminate|]. apply in_map_iff in Hz. destruct Hz as (? & <- & _). discriminate.
    - eexists. split; [reflexivity|]. split; [discriminate|]. split; [discriminate|eapply Old; [exact Hy|reflexivity]].
    - eexists. split; [reflexivity|]. split; [discriminate|]. split; [|eapply Old; [exact Hy|reflexivity]].
      rewrite not_subscribed; [discriminate|]. intros z [<-|Hz]; [discriminate|]. apply in_map_iff in Hz. destruct Hz as (? & <- & _). discriminate.
    - exists []. rewrite app_nil_r. split; [reflexivity|]. split; [discriminate|]. split; [discriminate|].
      eapply (Upd _ o' (OReq RC sid' a' true) (OReq RC sid' a' b')); [exact Hy|reflexivity|exact Ho|]. intros <-. discriminate Hl.
    - eexists. split; [reflexivity|]. split; [intros f E; injection E as <-; now left|]. split; [destruct Hev as [->| ->]; discriminate|eapply Old; [exact Hy|reflexivity]].
    - eexists. split; [reflexivity|]. split; [intros f E; injection E as <-; now left|]. split; [discriminate|eapply Old; [exact Hy|reflexivity]].
    - eexists. split; [reflexivity|]. split; [intros f E; injection E as <-; now left|]. split; [destruct Hev as [->| ->]; discriminate|eapply Old; [exact Hy|reflexivity]].
    - eexists. split; [reflexivity|]. split; [intros f E; injection E as <-; now left|]. split; [discriminate|eapply Old; [exact Hy|reflexivity]].
    - eexists. split; [reflexivity|]. split; [intros g E; injection E as <-; now left|]. split; [discriminate|eapply Old; [exact Hy|reflexivity]].
    - exists (HRecv f :: map (HCall o') (passed z (calls_of f))). split; [destruct (closes f); reflexivity|]. split; [intros g E; injection E as <-; now left|]. split.
      + rewrite not_subscribed; [discriminate|]. intros w [<-|Hz]; [discriminate|]. apply in_map_iff in Hz. destruct Hz as (? & <- & _). discriminate.
      + eapply Old; [exact Hy|]. destruct (closes f); reflexivity.
    - pose proof (handle_request_eq _ _ _ _ _ _ He) as E. exists (dispatched reg k' r (len (ep_objs (drop_job i' e)))).
      split; [rewrite E; destruct (accepted reg k' r && opens k'); reflexivity|]. split; [discriminate|]. split.
      + rewrite not_subscribed; [discriminate|]. intros w Hw ->. unfold dispatched in Hw. destruct (len (rq_metadata r) <? 8); [destruct Hw as [Hw|[]]; discriminate|].
        destruct (do_get k' reg _); [|destruct Hw as [Hw|[]]; discriminate]. destruct k'; repeat (destruct Hw as [Hw|Hw]; [discriminate|]); destruct Hw.
      + destruct (accepted reg k' r && opens k').
        * eapply New; [exact Hy|]. rewrite E. reflexivity.
        * eapply Old; [exact Hy|]. rewrite E. reflexivity.
    - eexists. split; [reflexivity|]. split; [discriminate|]. split; [discriminate|eapply Old; [exact Hy|reflexivity]].
    - eexists. split; [reflexivity|]. split; [discriminate|]. split; [discriminate|].
      eapply (Upd _ o' (OFlux (sf_on_complete s)) (OFlux s)); [exact Hy|reflexivity|exact Ho|]. intros <-. exact Hl.
    - exists []. rewrite app_nil_r. split; [reflexivity|]. split; [discriminate|]. split; [discriminate|eapply Old; [exact Hy|reflexivity]]. }
  destruct Tr as (ev & T & TF & TS & TO). destruct (subscribed o ev) eqn:Ev; [now apply TS|]. rewrite T, subscribed_app, Ev, orb_false_r in Hs.
  destruct TO as [TO|(y' & Y1 & Y2)].
  - exfalso. assert (L : len (ep_objs e) <= o).
    { unfold ep_obj in TO. apply nth_error_None in TO. unfold len. lia. }
    destruct (unseen_facts _ _ (mo_new client e M o L)) as [U _]. congruence.
  - rewrite T, after_app, Hs, recvd_app, Forall_app in Hf. destruct Hf as [F1 F2].
    destruct (VR (K o y' i Y1 Y2 Hs F1)) as [R|(f & o' & z & -> & E1 & E2 & _)]; [exact R|]. exfalso.
    pose proof (recvd_in f ev (TF f eq_refl)) as X. rewrite E1 in X. rewrite Forall_forall in F2. rewrite (F2 f X) in E2. discriminate.
Qed.
Lemma history_open : forall reg sb client l e, history reg sb client l e -> open_ok client e /\ good client e.
Proof.
  intros reg sb client l e (H & C & P). apply (run_inv reg sb client (open_ok client)) with (l := l); auto; [|apply open_view|lia].
  split; [apply mono_ok_init|]. intros o y i Hy. unfold ep_obj in Hy. cbn in Hy. destruct (N.to_nat o); discriminate.
Qed.

(** ** The properties *)
(** The frames that are passed on to the stream they name. *)
Definition touching (f : frame) : bool :=
  match f with FCancel _ | FError _ => true | FPayload p => pl_next p || pl_complete p | _ => false end.
(** Any such frame on the stream of a request-stream or fire-and-forget request
    that was handed to a handler stops the end that serves it, at any later
    time, finished or not. *)
Theorem C63_served_stream_touched :
  forall reg sb client l e k sid h p f, history reg sb client l e -> NoDup (rids (ep_trace e)) ->
    In (HInvoke k sid h p) (ep_trace e) -> k = RS \/ k = FNF ->
    touching f = true -> frame_stream f = sid -> hrun reg sb client (l ++ [XFrame f]) ep_init = Panic.
Proof.
  intros reg sb client l e k sid h p f H ND Hi Hk Ht Hs. destruct (history_serve reg sb client l e H) as [S G].
  assert (Nk : k <> RR) by (destruct Hk; congruence). destruct (so_inv client e S k sid h p Hi Nk) as (o & b & Ho & Hb).
  assert (b = false) by (destruct Hb as [->| ->]; [reflexivity|destruct Hk; discriminate]). subst b.
  pose proof (so_reg client e S ND o k sid _ Ho) as R. destruct (registered_get client sid o e G R) as (o' & Go & R').
  destruct (registered_obj client _ _ e G R') as (y & Y1 & Y2).
  assert (Ey : has_sink y = false).
  { destruct y as [q|q|k2 sid2 a2 b2]; cbn in Y2.
    1,2: exfalso; destruct (g_loc client e G o' _ _ Y1 eq_refl) as (z & _ & Z); cbn in Z; pose proof (g_peer client e G _ _ _ _ _ Ho) as Q; rewrite <- Y2, Z, nth_id_odd in Q; now destruct client.
    subst sid2. destruct (so_ids client e S ND) as [S1 _]. apply nodup_app in S1. destruct S1 as (S1 & _ & _).
    assert (X : N.to_nat o = N.to_nat o') by (eapply (nodup_positions (ep_objs e)); [exact S1|exact Ho|exact Y1|now left|now left]).
    apply N2Nat.inj in X. subst o'. rewrite Y1 in Ho. now injection Ho as -> -> ->. }
  destruct H as (H & _). rewrite hrun_app, H. cbn [hrun hstep bind]. rewrite handle_on_stream by (destruct f; auto; discriminate).
  rewrite Hs. change (get_stream sid (ep_emit [HRecv f] e)) with (get_stream sid e). rewrite Go.
  assert (P : forall q qs, stream_calls o' (q :: qs) (ep_emit [HRecv f] e) = Panic).
  { intros q qs. cbn [stream_calls]. unfold stream_call. change (ep_obj o' (ep_emit [HRecv f] e)) with (ep_obj o' e). rewrite Y1.
    destruct y as [?|?|? ? ? ?]; cbn in Ey; [discriminate..|]. now rewrite Ey. }
  destruct f as [?|?|?|?|pl|?]; try discriminate; cbn [calls_of]; [now rewrite P| |now rewrite P].
  cbn in Ht. destruct (pl_next pl); [cbn [app]; now rewrite P|]. cbn [app]. cbn in Ht. rewrite Ht. now rewrite P.
Qed.
Lemma registered_local : forall client e o y i o', good client e -> ep_obj o e = Some y -> local_id y = Some i -> registered i o' e -> o' = o.
Proof.
  intros client e o y i o' G Ho Hl R. destruct (registered_obj client i o' e G R) as (z & Z1 & Z2).
  destruct (g_loc client e G o y i Ho Hl) as (p & _ & P).
  destruct z as [q|q|k2 sid2 a2 b2].
  1,2: symmetry; eapply (g_inj client e G o o'); [exact Ho|exact Z1|exact Hl|cbn in *; congruence].
  exfalso. pose proof (g_peer client e G _ _ _ _ _ Z1) as Q. cbn in Z2. rewrite Z2, P, nth_id_odd in Q. now destruct client.
Qed.
(** A RequestN on the stream of a request-response call that was subscribed and
    has not been closed stops the calling end. *)
Theorem C63_demand_on_a_mono_call :
  forall reg sb client l e o sid p input n, history reg sb client l e -> In (HCalled o RR sid p input) (ep_trace e) ->
    subscribed o (ep_trace e) = true -> Forall (fun f => closes f = false) (recvd sid (after o (ep_trace e))) ->
    hrun reg sb client (l ++ [XFrame (FRequestN {| rn_stream := sid; rn_n := n |})]) ep_init = Panic.
Proof.
  intros reg sb client l e o sid p input n H Hc Hs Hf. destruct (history_open reg sb client l e H) as [[M K] G].
  destruct (fo_called client e (mo_flux client e M) o RR sid p input Hc) as (x & X1 & X2). destruct x as [r|s|]; cbn in X2; [|destruct X2 as [[X2|X2] _]; discriminate|destruct X2].
  destruct X2 as [_ ->]. pose proof (K o _ sid X1 eq_refl Hs Hf) as R. destruct (registered_get client sid o e G R) as (o' & Go & R').
  rewrite (registered_local client e o _ sid o' G X1 eq_refl R') in Go.
  destruct H as (H & _). rewrite hrun_app, H. cbn [hrun hstep bind handle_frame rn_stream].
  change (get_stream sid (ep_emit ?a e)) with (get_stream sid e). rewrite Go. change (ep_obj o (ep_emit ?a e)) with (ep_obj o e). now rewrite X1.
Qed.
(** The same frame on the stream of a request-stream call, or of a channel call
    without input, starts a goroutine that stops this end when it runs, no matter
    what happens before. *)
Theorem C63_demand_without_input :
  forall reg sb client l e o k sid p n, history reg sb client l e -> In (HCalled o k sid p false) (ep_trace e) -> k = RS \/ k = RC ->
    subscribed o (ep_trace e) = true -> Forall (fun f => closes f = false) (recvd sid (after o (ep_trace e))) ->
    exists e', hrun reg sb client (l ++ [XFrame (FRequestN {| rn_stream := sid; rn_n := n |})]) ep_init = Ok e' /\
      ep_jobs e' = ep_jobs e ++ [JDemand o (Z.of_N n)].
Proof.
  intros reg sb client l e o k sid p n H Hc Hk Hs Hf. destruct (history_open reg sb client l e H) as [[M K] G].
  destruct (fo_called client e (mo_flux client e M) o k sid p false Hc) as (x & X1 & X2). destruct x as [r|s|]; cbn in X2; [destruct X2 as [-> _]; now destruct Hk| |destruct X2].
  destruct X2 as (_ & X2 & _). assert (Es : rq_stream (sf_req s) = sid) by (exact (f_equal rq_stream X2)).
  assert (Hl : local_id (OFlux s) = Some sid) by (cbn; now rewrite Es).
  pose proof (K o _ sid X1 Hl Hs Hf) as R. destruct (registered_get client sid o e G R) as (o' & Go & R').
  rewrite (registered_local client e o _ sid o' G X1 Hl R') in Go.
  destruct H as (H & _). rewrite hrun_app, H. cbn [hrun hstep bind handle_frame rn_stream rn_n].
  change (get_stream sid (ep_emit ?a e)) with (get_stream sid e). rewrite Go. change (ep_obj o (ep_emit ?a e)) with (ep_obj o e). rewrite X1.
  eexists. split; [reflexivity|]. reflexivity.
Qed.
Theorem C63_demand_goroutine :
  forall reg sb client l e o k sid p n i, history reg sb client l e -> In (HCalled o k sid p false) (ep_trace e) ->
    nth_error (ep_jobs e) i = Some (JDemand o n) -> hrun reg sb client (l ++ [XJob i]) ep_init = Panic.
Proof.
  intros reg sb client l e o k sid p n i H Hc Hj. destruct (history_open reg sb client l e H) as [[M K] G].
  destruct (fo_called client e (mo_flux client e M) o k sid p false Hc) as (x & X1 & X2).
  destruct H as (H & _). rewrite hrun_app, H. cbn [hrun hstep bind]. rewrite Hj. cbn [run_job]. unfold do_demand.
  match goal with |- context [ep_obj o ?z] => change (ep_obj o z) with (ep_obj o e) end. rewrite X1.
  destruct x as [r|s|]; cbn in X2; [reflexivity| |destruct X2]. destruct X2 as (_ & _ & ->). reflexivity.
Qed.
(** A stream handler whose flux has no subscription (flux.Error) stops the end
    that serves the request. *)
Theorem C63_error_flux_handler :
  forall reg sb client l e k r h i, history reg sb client l e -> nth_error (ep_jobs e) i = Some (JHandle k r) -> k = RS \/ k = RC ->
    8 <= len (rq_metadata r) -> do_get k reg (unbe (takeN 4 (rq_metadata r))) = Some h -> sb h = false ->
    hrun reg sb client (l ++ [XJob i]) ep_init = Panic.
Proof.
  intros reg sb client l e k r h i H Hj Hk Hm Hg Hb. destruct H as (H & _). rewrite hrun_app, H. cbn [hrun hstep bind]. rewrite Hj. cbn [run_job]. unfold handle_request.
  assert (E : len (rq_metadata r) <? 8 = false) by now apply N.ltb_ge. rewrite E, Hg. destruct Hk as [->| ->]; now rewrite Hb.
Qed.
(** A stream and a fire-and-forget request are served (stream 1 and 3), and this
    end has a call and a stream of its own open (2 and 4).  The stream is
    completed by its handler; nothing is closed.  Then every frame of the kinds
    above stops this end; without them it does not stop. *)
Definition C63_exports : list reg_call := [CExport RS ([97], [98]) 11; CExport FNF ([97], [98]) 12; CExport RS ([97], [99]) 13].
Definition C63_reg : registry := reg_run C63_exports.
Definition C63_sb (h : N) : bool := negb (h =? 13).
Definition C63_req (ty sid i : N) : frame :=
  FRequest {| rq_type := ty; rq_stream := sid; rq_metadata := [0; 0; 0; i; 0; 0; 0; 0]; rq_data := [5]; rq_follows := false; rq_complete := false; rq_initial := 2 |}.
Definition C63_history : list hop :=
  [XFrame (C63_req FrameTypeRequestStream 1 0); XFrame (C63_req FrameTypeRequestFNF 3 0); XJob 1; XJob 0; XCall RR pay1 false; XCall RS pay1 false;
   XSubscribe 2; XSubscribe 3; XRequest 3 7; XFrame (item 4 [1] true false)].
Definition C63_end : ep := match hrun C63_reg C63_sb false C63_history ep_init with Ok e => e | _ => ep_init end.
Definition C63_then (x : list hop) : res ep := hrun C63_reg C63_sb false (C63_history ++ x) ep_init.
Example C63_example :
  history C63_reg C63_sb false C63_history C63_end /\ NoDup (rids (ep_trace C63_end)) /\
  In (HInvoke RS 1 11 {| py_data := [5]; py_meta := [0; 0; 0; 0; 0; 0; 0; 0] |}) (ep_trace C63_end) /\
  In (HInvoke FNF 3 12 {| py_data := [5]; py_meta := [] |}) (ep_trace C63_end) /\
  In (HCalled 2 RR 2 pay1 false) (ep_trace C63_end) /\ subscribed 2 (ep_trace C63_end) = true /\ recvd 2 (after 2 (ep_trace C63_end)) = [] /\
  In (HCalled 3 RS 4 pay1 false) (ep_trace C63_end) /\ subscribed 3 (ep_trace C63_end) = true /\ recvd 4 (after 3 (ep_trace C63_end)) = [item 4 [1] true false] /\
  C63_then [XFrame (FCancel {| cn_stream := 1 |})] = Panic /\ C63_then [XFrame (errf 3 [2])] = Panic /\ C63_then [XFrame (item 1 [] false true)] = Panic /\
  C63_then [XFrame (FRequestN {| rn_stream := 2; rn_n := 1 |})] = Panic /\
  C63_then [XFrame (FRequestN {| rn_stream := 4; rn_n := 1 |}); XJob 0] = Panic /\
  C63_then [XFrame (C63_req FrameTypeRequestStream 5 1); XJob 0] = Panic /\
  C63_then [XFrame (FRequestN {| rn_stream := 1; rn_n := 1 |}); XJob 0; XFrame (item 1 [] false false); XFrame (item 4 [] false true); XFrame (item 2 [1] true true)] <> Panic.
Proof.
  split; [split; [vm_compute; reflexivity|split; [vm_compute; reflexivity|repeat constructor]]|].
  split; [vm_compute; repeat constructor; cbn; intuition discriminate|].
  repeat (split; [vm_compute; tauto|]). vm_compute. discriminate.
Qed.
Print Assumptions C63_served_stream_touched.
Print Assumptions C63_demand_on_a_mono_call.
Print Assumptions C63_demand_without_input.
Print Assumptions C63_demand_goroutine.
Print Assumptions C63_error_flux_handler.
