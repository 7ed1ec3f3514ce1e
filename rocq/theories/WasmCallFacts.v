(** For C98: the calls a WebAssembly end makes, in every execution of a host or a guest. *)
From Verif Require Import Base BaseFacts FramesModel WasmModel InvokeModel LookupModel HandlerModel HandlerFacts HandlerProps HandlerCallProps HandlerCrashProps
  HandlerServeProps JointModel JointFacts JointProps StreamFacts WasmEndModel WasmEndFacts WasmEndProps.
Local Ltac Zify.zify_post_hook ::= Z.div_mod_to_equations.

(** Steps that leave the calls of this end alone: a request arrives or is served. *)
Definition calm_event (c : bool) (x : hevent) : Prop :=
  match x with
  | HSent f => exists y, f = FError y /\ N.odd (er_stream y) = negb c
  | HRecv f => on_stream f = false
  | HInvoke _ _ _ _ | HDemand _ _ => True
  | _ => False
  end.
Record calm (c : bool) (e e' : ep) (ev : list hevent) : Prop := {
  ca_trace : ep_trace e' = ep_trace e ++ ev;
  ca_ids : ep_ids e' = ep_ids e;
  ca_objs : ep_objs e' = ep_objs e \/ exists k sid a b, ep_objs e' = ep_objs e ++ [OReq k sid a b];
  ca_reg : forall i o, N.odd i = c -> registered i o e' <-> registered i o e;
  ca_ev : Forall (calm_event c) ev }.
Lemma calm_old : forall c e e' ev o y, calm c e e' ev -> ep_obj o e = Some y -> ep_obj o e' = Some y.
Proof.
  intros c e e' ev o y [_ _ O _ _] H. unfold ep_obj in *. destruct O as [->|(k & sid & a & b & ->)]; [exact H|]. rewrite nth_error_app1; [exact H|]. apply nth_error_Some. congruence.
Qed.
Lemma calm_new : forall c e e' ev o y, calm c e e' ev -> ep_obj o e' = Some y -> (forall k sid a b, y <> OReq k sid a b) -> ep_obj o e = Some y.
Proof.
  intros c e e' ev o y [_ _ O _ _] H Hy. unfold ep_obj in *. destruct O as [E|(k & sid & a & b & E)]; rewrite E in H; [exact H|].
  destruct (nth_error (ep_objs e) (N.to_nat o)) as [w|] eqn:Ew.
  - rewrite nth_error_app1 in H by (apply nth_error_Some; congruence). congruence.
  - rewrite nth_error_app2 in H by now apply nth_error_None. destruct (N.to_nat o - List.length (ep_objs e))%nat as [|[]]; cbn in H; try discriminate. injection H as <-. now destruct (Hy k sid a b).
Qed.
Lemma calm_len : forall c e e' ev, calm c e e' ev -> len (ep_objs e) <= len (ep_objs e').
Proof. intros c e e' ev [_ _ O _ _]. destruct O as [->|(k & sid & a & b & ->)]; unfold len; rewrite ?app_length; lia. Qed.
Lemma calm_unseen : forall c ev o, Forall (calm_event c) ev -> unseen o ev.
Proof. intros c ev o H. unfold unseen. apply Forall_impl with (2 := H). intros []; cbn; tauto. Qed.
Lemma calm_neutral : forall c ev sid, Forall (calm_event c) ev -> neutral sid ev /\ flat_map calls_of (recvd sid ev) = [] /\ Forall (fun f => closes f = false) (recvd sid ev).
Proof.
  intros c ev sid H. induction H as [|x ev Hx H IH]; [repeat split; constructor|]. destruct IH as ([I1 I2] & I3 & I4).
  destruct x; try (split; [split|]; auto; fail). cbn in Hx. unfold neutral. cbn [recvd flat_map]. fold (recvd sid ev). destruct (frame_stream f =? sid); [|repeat split; auto].
  cbn [app answers flat_map]. fold (answers (recvd sid ev)). destruct f; try discriminate Hx; cbn; repeat split; auto.
Qed.
Lemma calm_inert : forall c e ev, Forall (calm_event c) ev -> inert c e ev.
Proof. intros c e ev H. unfold inert. apply Forall_impl with (2 := H). intros []; cbn; try tauto. intros (y & -> & Hy) _. exact Hy. Qed.
Lemma calm_flux : forall c e e' ev, good c e -> flux_ok c e -> calm c e e' ev -> flux_ok c e'.
Proof.
  intros c e e' ev G F K. apply (flux_ok_inert c e e' ev G F (ca_trace _ _ _ _ K) (ca_ids _ _ _ _ K) (calm_len _ _ _ _ K)).
  - intros o s H. apply (calm_new c e e' ev o _ K H). discriminate.
  - intros o x H _. exact (calm_old c e e' ev o x K H).
  - apply calm_inert, K.
Qed.
Lemma calm_mono : forall c e e' ev, good c e -> mono_ok c e -> calm c e e' ev -> mono_ok c e'.
Proof.
  intros c e e' ev G M K. apply (mono_ok_step c e e' ev M (calm_flux c e e' ev G (mo_flux _ _ M) K) (ca_trace _ _ _ _ K) (calm_len _ _ _ _ K)).
  - intros o r H. left. assert (Ho : ep_obj o e = Some (OMono r)) by (apply (calm_new c e e' ev o _ K H); discriminate). split; [exact Ho|].
    split; [apply (calm_unseen c), K|]. pose proof (mono_stream_local c e o r G Ho) as P. split; [|split; [apply (calm_neutral c), K|symmetry; apply (ca_reg _ _ _ _ K); exact P]].
    unfold unsent. apply Forall_impl with (2 := ca_ev _ _ _ _ K). intros []; cbn; try tauto. intros (y & -> & Hy) _ E. cbn in E. rewrite E, P in Hy. now destruct c.
  - intros o _. apply (calm_unseen c), K.
Qed.
Lemma local_parity : forall c e o y i, good c e -> ep_obj o e = Some y -> local_id y = Some i -> N.odd i = c.
Proof. intros c e o y i G H L. destruct (g_loc c e G o _ _ H L) as (q & _ & ->). apply nth_id_odd. Qed.
Lemma calm_open : forall c e e' ev, good c e -> open_ok c e -> calm c e e' ev -> open_ok c e'.
Proof.
  intros c e e' ev G [M O] K. split; [exact (calm_mono c e e' ev G M K)|]. intros o y i Hy Hl Hs Hf.
  assert (Ho : ep_obj o e = Some y). { apply (calm_new c e e' ev o y K Hy). intros k sid a b ->. discriminate. }
  apply (ca_reg _ _ _ _ K); [exact (local_parity c e o y i G Ho Hl)|].
  destruct (unseen_facts o ev (calm_unseen c ev o (ca_ev _ _ _ _ K))) as [U1 _]. rewrite (ca_trace _ _ _ _ K), subscribed_app, U1, orb_false_r in Hs.
  apply (O o y i Ho Hl Hs). rewrite (ca_trace _ _ _ _ K), after_app, Hs, recvd_app in Hf. apply Forall_app in Hf. tauto.
Qed.
Lemma calm_stream : forall c e e' ev, good c e -> stream_ok c e -> calm c e e' ev -> stream_ok c e'.
Proof.
  intros c e e' ev G [O S] K. split; [exact (calm_open c e e' ev G O K)|]. intros o s H.
  assert (Ho : ep_obj o e = Some (OFlux s)) by (apply (calm_new c e e' ev o _ K H); discriminate).
  destruct (S o s Ho) as [A B C]. set (sid := rq_stream (sf_req s)) in *. destruct (unseen_facts o ev (calm_unseen c ev o (ca_ev _ _ _ _ K))) as [U1 U2].
  destruct (calm_neutral c ev sid (ca_ev _ _ _ _ K)) as (_ & N2 & N3). rewrite (ca_trace _ _ _ _ K). constructor.
  - rewrite subscribed_app, U1, orb_false_r, got_app, U2, app_nil_r. intros X. destruct (A X) as [A1 A2]. split; [|exact A2]. intros R. apply A1.
    apply (ca_reg _ _ _ _ K); [exact (flux_stream_local c e o s G Ho)|exact R].
  - rewrite got_app, U2, app_nil_r, recvd_app, flat_map_app. now apply subseq_more.
  - rewrite after_app, got_app, U2, app_nil_r. destruct (subscribed o (ep_trace e)) eqn:X.
    + rewrite recvd_app, flat_map_app, N2, app_nil_r. intros H1. apply C. apply closed_last_app in H1. tauto.
    + rewrite (after_none _ _ U1). destruct (A eq_refl) as [_ ->]. reflexivity.
Qed.
Lemma calm_sent : forall c e e' ev, sent_ok c e -> calm c e e' ev ->
  (forall k r, In (JHandle k r) (ep_jobs e') -> In (JHandle k r) (ep_jobs e)) ->
  (forall o k sid a b, ep_obj o e' = Some (OReq k sid a b) -> (exists a b, ep_obj o e = Some (OReq k sid a b)) \/ exists r, In (k, r) (requests (ep_trace e')) /\ rq_stream r = sid) ->
  sent_ok c e'.
Proof.
  intros c e e' ev S K J O. apply (sent_ok_step c e e' ev S (ca_trace _ _ _ _ K)); [intros k r H; left; exact (J k r H)|exact O|].
  intros f Hf. pose proof (ca_ev _ _ _ _ K) as F. rewrite Forall_forall in F. destruct (F _ Hf) as (y & -> & _). exact I.
Qed.

(** What a request that is served does, at a host and at a guest. *)
Lemma calm_ignored : forall c f e, ignored f = true -> calm c e (ep_emit [HRecv f] e) [HRecv f].
Proof. intros c f e H. constructor; try reflexivity; auto. constructor; [|constructor]. destruct f; try discriminate; reflexivity. Qed.
Lemma registered_peer : forall c sid o e i o', good c e -> N.odd sid = negb c -> N.odd i = c -> registered i o' (register sid o e) <-> registered i o' e.
Proof.
  intros c sid o e i o' G P Q. rewrite (registered_register c sid o e i o' G). split; [|auto]. intros [H|[-> _]]; [exact H|]. rewrite Q in P. now destruct c.
Qed.
Lemma calm_host_request : forall sb imported k r i e e', good false e -> N.odd (rq_stream r) = true -> host_request sb imported k r (drop_job i e) = Ok e' ->
  calm false e e' (host_answer imported k r (len (ep_objs e))).
Proof.
  intros sb imported k r i e e' G P H. rewrite (host_request_eq _ _ _ _ _ _ H). change (len (ep_objs (drop_job i e))) with (len (ep_objs e)).
  constructor.
  - cbn [ep_emit ep_trace]. f_equal. destruct (host_accepts imported k r); [destruct k|]; reflexivity.
  - destruct (host_accepts imported k r); [destruct k|]; reflexivity.
  - destruct (host_accepts imported k r); [destruct k|]; auto; right; eexists _, _, _, _; reflexivity.
  - intros i' o Hi. change (registered i' o (ep_emit ?l ?x)) with (registered i' o x). destruct (host_accepts imported k r); [|reflexivity]. destruct k; try reflexivity.
    cbn [host_opens]. rewrite (registered_peer false); auto; [reflexivity|]. apply good_new; [now apply good_drop|discriminate|]. intros k0 sid a0 b0 E. injection E as _ <- _ _. exact P.
  - unfold host_answer. destruct (len (rq_metadata r) <? 8); [constructor; [|constructor]; eexists; split; [reflexivity|exact P]|].
    destruct (imported k _); [|constructor; [|constructor]; eexists; split; [reflexivity|exact P]]. constructor; [exact I|]. destruct k; repeat constructor.
Qed.
Lemma calm_guest_request : forall reg sb k r e e', good true e -> N.odd (rq_stream r) = false -> handle_request reg sb k r (ep_emit [HRecv (FRequest r)] e) = Ok e' ->
  calm true e e' (HRecv (FRequest r) :: dispatched reg k r (len (ep_objs e))).
Proof.
  intros reg sb k r e e' G P H. rewrite (handle_request_eq _ _ _ _ _ _ H). change (len (ep_objs (ep_emit [HRecv (FRequest r)] e))) with (len (ep_objs e)).
  constructor.
  - destruct (accepted reg k r && opens k); cbn [ep_emit ep_trace register ep_on ep_new]; now rewrite <- app_assoc.
  - destruct (accepted reg k r && opens k); reflexivity.
  - destruct (accepted reg k r && opens k); auto. right. eexists _, _, _, _. reflexivity.
  - intros i' o Hi. change (registered i' o (ep_emit ?l ?x)) with (registered i' o x). destruct (accepted reg k r && opens k); [|reflexivity].
    rewrite (registered_peer true); auto; [reflexivity|]. apply good_new; [now apply good_emit|discriminate|]. intros k0 sid a0 b0 E. injection E as _ <- _ _. exact P.
  - constructor; [reflexivity|]. unfold dispatched. destruct (len (rq_metadata r) <? 8); [constructor; [|constructor]; eexists; split; [reflexivity|exact P]|].
    destruct (do_get k reg _); [|constructor; [|constructor]; eexists; split; [reflexivity|exact P]]. destruct k; repeat constructor.
Qed.
Lemma calm_demand : forall c r o e, calm c e (ep_emit [HRecv (FRequestN r); HDemand o (Z.of_N (rn_n r))] e) [HRecv (FRequestN r); HDemand o (Z.of_N (rn_n r))].
Proof. intros. constructor; try reflexivity; auto. repeat constructor. Qed.
Lemma calm_request_n : forall c r e, calm c e (ep_emit [HRecv (FRequestN r)] e) [HRecv (FRequestN r)].
Proof. intros. constructor; try reflexivity; auto. repeat constructor. Qed.

Definition calls_ok (c : bool) (e : ep) : Prop := stream_ok c e /\ sent_ok c e.
Lemma calls_ok_init : forall c, calls_ok c ep_init.
Proof.
  intros c. split; [|apply sent_ok_init]. split; [split; [apply mono_ok_init|]|]; intros o y; intros; unfold ep_obj in *; cbn in *; destruct (N.to_nat o); discriminate.
Qed.
Lemma calls_ok_view : forall reg sb c x e e', good c e -> good c e' -> calls_ok c e -> (is_call x = true -> ep_ids e < 1073741823) ->
  (forall r, x = XFrame (FRequest r) -> N.odd (rq_stream r) = negb c) -> view reg sb c x e e' -> calls_ok c e'.
Proof. intros reg sb c x e e' G G' [S T] H1 H2 V. split; [exact (stream_view reg sb c x e e' G G' S H1 H2 V)|exact (sent_ok_view reg sb c x e e' G G' T H1 H2 V)]. Qed.
Lemma host_calls_ok : forall sb l e, host_history sb l e -> calls_ok false e /\ good false e.
Proof.
  intros sb l e (H & C & P). apply (host_inv sb (fun _ => True) (calls_ok false)) with (l := l); auto; [apply calls_ok_init| | | |now apply Forall_forall|lia].
  - intros x e0 e1 G G' S _ _ H1 H2 V. exact (calls_ok_view _ _ _ _ _ _ G G' S H1 H2 V).
  - intros f e0 G [S T] Hf. pose proof (calm_ignored false f e0 Hf) as K. split; [exact (calm_stream _ _ _ _ G S K)|]. apply (calm_sent false e0 _ _ T K); [auto|].
    intros o k sid a b Ho. left. exists a, b. exact Ho.
  - intros i k r im e0 e1 _ G G' [S T] Hj Ho E. pose proof (calm_host_request _ _ _ _ _ _ _ G Ho E) as K. split; [exact (calm_stream _ _ _ _ G S K)|].
    apply (calm_sent false e0 _ _ T K).
    + intros k' r' Hi. rewrite (host_request_eq _ _ _ _ _ _ E) in Hi. assert (Hi' : In (JHandle k' r') (ep_jobs (drop_job i e0))).
      { change (ep_jobs (ep_emit ?l ?x)) with (ep_jobs x) in Hi. destruct (host_accepts im k r); [destruct k|]; exact Hi. }
      cbn [drop_job ep_jobs] in Hi'. apply in_app_iff in Hi'. rewrite <- (firstn_skipn i (ep_jobs e0)), in_app_iff. destruct Hi' as [Hi'|Hi']; [now left|right].
      rewrite skipn_S_tl in Hi'. destruct (skipn i (ep_jobs e0)); [destruct Hi'|now right].
    + intros o k' sid a b Hx. assert (R : In (k, r) (requests (ep_trace e1))).
      { rewrite (ca_trace _ _ _ _ K), requests_app. apply in_app_iff. left. apply (st_jobs _ _ T). exact (nth_error_In _ _ Hj). }
      rewrite (host_request_eq _ _ _ _ _ _ E) in Hx. unfold ep_obj in *. cbn [ep_emit ep_objs] in Hx.
      destruct (host_accepts im k r); [destruct k|]; cbn [host_opens register ep_on ep_new ep_objs drop_job] in Hx; try (left; eauto; fail);
        (destruct (nth_error (ep_objs e0) (N.to_nat o)) as [w|] eqn:Ew;
         [rewrite nth_error_app1 in Hx by (apply nth_error_Some; congruence); left; rewrite Ew in Hx; eauto|]);
        rewrite nth_error_app2 in Hx by (now apply nth_error_None); destruct (N.to_nat o - List.length (ep_objs e0))%nat as [|[]]; cbn in Hx; try discriminate;
        injection Hx as <- <- _ _; right; eauto.
Qed.
Lemma guest_calls_ok : forall reg sb l e, guest_history reg sb l e -> calls_ok true e /\ good true e.
Proof.
  intros reg sb l e (H & C & P). apply (guest_inv reg sb (calls_ok true)) with (l := l); auto; [apply calls_ok_init| | | | | |lia].
  - intros x e0 e1 G G' S _ _ H1 H2 V. exact (calls_ok_view _ _ _ _ _ _ G G' S H1 H2 V).
  - intros f e0 G [S T] Hf. pose proof (calm_ignored true f e0 Hf) as K. split; [exact (calm_stream _ _ _ _ G S K)|]. apply (calm_sent true e0 _ _ T K); [auto|].
    intros o k sid a b Ho. left. exists a, b. exact Ho.
  - intros k r e0 e1 G G' [S T] Hk Hf Ho E. pose proof (calm_guest_request _ _ _ _ _ _ G Ho E) as K. split; [exact (calm_stream _ _ _ _ G S K)|].
    apply (calm_sent true e0 _ _ T K).
    + intros k' r' Hi. rewrite (handle_request_eq _ _ _ _ _ _ E) in Hi. destruct (accepted reg k r && opens k); exact Hi.
    + intros o k' sid a b Hx. assert (R : In (k, r) (requests (ep_trace e1))).
      { rewrite (ca_trace _ _ _ _ K), requests_app. apply in_app_iff. right. cbn [requests flat_map]. rewrite <- kind_code_of, Hk. now left. }
      rewrite (handle_request_eq _ _ _ _ _ _ E) in Hx. destruct (accepted reg k r && opens k); [|left; exists a, b; exact Hx].
      change (ep_obj o (ep_new (OReq k (rq_stream r) (has_sub k) false) e0) = Some (OReq k' sid a b)) in Hx. apply obj_new in Hx.
      destruct Hx as [Hx|[_ Hx]]; [left; eauto|]. injection Hx as -> -> _ _. right. eauto.
  - intros r e0 G [S T] _. pose proof (calm_request_n true r e0) as K. split; [exact (calm_stream _ _ _ _ G S K)|]. apply (calm_sent true e0 _ _ T K); [auto|].
    intros o k sid a b Ho. left. exists a, b. exact Ho.
  - intros r o e0 G [S T] _ _. pose proof (calm_demand true r o e0) as K. split; [exact (calm_stream _ _ _ _ G S K)|]. apply (calm_sent true e0 _ _ T K); [auto|].
    intros o' k sid a b Ho. left. exists a, b. exact Ho.
Qed.
