(** C82, C83: demand for the streams an end serves. *)
From Verif Require Import Base BaseFacts FramesModel WasmModel InvokeModel InvokeProofs LookupModel HandlerModel HandlerFacts HandlerProps HandlerCallProps HandlerServeProps
  HandlerCrashProps JointModel JointFacts RespModel RaceProps WasmEndModel WasmEndFacts WasmEndProps.
From Coq Require Import Permutation.
Local Ltac Zify.zify_post_hook ::= Z.div_mod_to_equations.

(** What was passed on to the subscription behind stream object [o], and to its
    sink. *)
Definition demanded (o : N) (t : list hevent) : list Z := flat_map (fun x => match x with HDemand o' n => if o' =? o then [n] else [] | _ => [] end) t.
Definition called (o : N) (t : list hevent) : list scall := flat_map (fun x => match x with HCall o' k => if o' =? o then [k] else [] | _ => [] end) t.
Lemma demanded_app : forall o a b, demanded o (a ++ b) = demanded o a ++ demanded o b.
Proof. intros. apply flat_map_app. Qed.
Lemma called_app : forall o a b, called o (a ++ b) = called o a ++ called o b.
Proof. intros. apply flat_map_app. Qed.
Lemma split_at : forall A (a b t1 t2 : list A) x, a ++ b = t1 ++ x :: t2 -> ~ In x b -> exists t, a = t1 ++ x :: t /\ t2 = t ++ b.
Proof.
  induction a as [|y a IH]; intros b t1 t2 x H N; cbn in H.
  - exfalso. apply N. rewrite H. apply in_app_iff. right. now left.
  - destruct t1 as [|z t1]; cbn in H; injection H as -> H.
    + exists a. split; [reflexivity|]. symmetry. exact H.
    + destruct (IH b t1 t2 x H N) as (t & -> & ->). exists t. split; reflexivity.
Qed.
Lemma split_at2 : forall A (a b t1 t2 : list A) x, a ++ b = t1 ++ x :: t2 ->
  (exists t, a = t1 ++ x :: t /\ t2 = t ++ b) \/ (exists t, t1 = a ++ t /\ b = t ++ x :: t2).
Proof.
  induction a as [|y a IH]; intros b t1 t2 x H; cbn in H; [right; exists t1; auto|].
  destruct t1 as [|z t1]; cbn in H; injection H as -> H; [left; exists a; auto|].
  destruct (IH b t1 t2 x H) as [(t & -> & ->)|(t & -> & ->)]; [left|right]; exists t; auto.
Qed.

(** ** C82: streams served by the host *)
Definition is_rs (x : option sobj) : bool := match x with Some (OReq RS _ _ _) => true | _ => false end.
(** The invocations of stream handlers, with the demand passed on right after. *)
Record host_rs (e : ep) : Prop := {
  hr_ent : forall sid o, In (sid, o) (all_entries e) -> is_rs (ep_obj o e) = false /\ o < len (ep_objs e);
  hr_job : forall o n, In (JDemand o n) (ep_jobs e) -> is_rs (ep_obj o e) = false /\ o < len (ep_objs e);
  hr_req : forall k r, In (JHandle k r) (ep_jobs e) -> In (HRecv (FRequest r)) (ep_trace e) /\ kind_code (rq_type r) = Some k;
  hr_old : forall o, demanded o (ep_trace e) <> [] \/ called o (ep_trace e) <> [] -> o < len (ep_objs e);
  hr_inv : forall t1 sid h p t2, ep_trace e = t1 ++ HInvoke RS sid h p :: t2 ->
    exists o r t3, t2 = HDemand o (Z.of_N (rq_initial r)) :: t3 /\ is_rs (ep_obj o e) = true /\ demanded o t1 = [] /\ demanded o t3 = [] /\ called o t1 = [] /\ called o t3 = [] /\
      In (HRecv (FRequest r)) t1 /\ kind_code (rq_type r) = Some RS /\ rq_stream r = sid }.
Lemma host_rs_step : forall e e' ev, host_rs e -> ep_trace e' = ep_trace e ++ ev ->
  (forall s, In s (all_entries e') -> In s (all_entries e) \/ (is_rs (ep_obj (snd s) e') = false /\ snd s < len (ep_objs e'))) ->
  (forall o n, In (JDemand o n) (ep_jobs e') -> In (JDemand o n) (ep_jobs e) \/ (is_rs (ep_obj o e') = false /\ o < len (ep_objs e'))) ->
  (forall k r, In (JHandle k r) (ep_jobs e') -> In (JHandle k r) (ep_jobs e) \/ (In (HRecv (FRequest r)) ev /\ kind_code (rq_type r) = Some k)) ->
  (forall o, o < len (ep_objs e) -> o < len (ep_objs e') /\ is_rs (ep_obj o e') = is_rs (ep_obj o e)) ->
  (forall o, demanded o ev <> [] \/ called o ev <> [] -> is_rs (ep_obj o e') = false /\ o < len (ep_objs e')) ->
  (forall sid h p, ~ In (HInvoke RS sid h p) ev) -> host_rs e'.
Proof.
  intros e e' ev [A B D C I] T E1 E2 E5 E3 E4 E6. constructor.
  - intros sid o H. destruct (E1 _ H) as [H1|H1]; [|exact H1]. destruct (A sid o H1) as [A1 A2]. destruct (E3 o A2) as [E7 E8]. rewrite E8. auto.
  - intros o n H. destruct (E2 _ _ H) as [H1|H1]; [|exact H1]. destruct (B o n H1) as [A1 A2]. destruct (E3 o A2) as [E7 E8]. rewrite E8. auto.
  - intros k r H. rewrite T, in_app_iff. destruct (E5 _ _ H) as [H1|[H1 H2]]; [|auto]. destruct (D k r H1). auto.
  - intros o. rewrite T, demanded_app, called_app. intros H.
    destruct (demanded o (ep_trace e)) eqn:X1; [|apply E3, C; left; rewrite X1; discriminate].
    destruct (called o (ep_trace e)) eqn:X2; [|apply E3, C; right; rewrite X2; discriminate]. apply E4. exact H.
  - intros t1 sid h p t2 H. rewrite T in H. apply split_at in H; [|apply E6]. destruct H as (t & H & ->).
    destruct (I t1 sid h p t H) as (o & r & t3 & -> & J1 & J2 & J3 & J4 & J5 & J6). exists o, r, (t3 ++ ev). split; [reflexivity|].
    assert (Lo : o < len (ep_objs e)).
    { apply C. left. rewrite H, demanded_app. cbn [demanded flat_map]. rewrite N.eqb_refl. cbn. intros X. apply app_eq_nil in X. destruct X as [_ X]. discriminate X. }
    destruct (E3 o Lo) as [E7 E8]. rewrite J1 in E8. split; [exact E8|].
    rewrite demanded_app, called_app, J3, J5. cbn [app].
    assert (N1 : demanded o ev = []). { destruct (demanded o ev) eqn:X; [reflexivity|]. destruct (E4 o) as [X1 _]; [left; rewrite X; discriminate|]. congruence. }
    assert (N2 : called o ev = []). { destruct (called o ev) eqn:X; [reflexivity|]. destruct (E4 o) as [X1 _]; [right; rewrite X; discriminate|]. congruence. }
    auto 10.
Qed.
Lemma rs_new : forall o x e, o < len (ep_objs e) -> o < len (ep_objs (ep_new x e)) /\ is_rs (ep_obj o (ep_new x e)) = is_rs (ep_obj o e).
Proof.
  intros o x e L. cbn [ep_new ep_objs]. rewrite len_app. split; [lia|]. unfold ep_obj. cbn [ep_new ep_objs]. rewrite nth_error_app1; [reflexivity|]. unfold len in L. lia.
Qed.
Lemma upd_len : forall A (l : list A) i f, List.length (upd l i f) = List.length l.
Proof. induction l as [|x l IH]; intros [|i] f; cbn; auto. Qed.
Lemma rs_set : forall o' x y e, ep_obj o' e = Some y -> is_rs (Some x) = is_rs (Some y) -> forall o, o < len (ep_objs e) ->
  o < len (ep_objs (ep_set o' x e)) /\ is_rs (ep_obj o (ep_set o' x e)) = is_rs (ep_obj o e).
Proof.
  intros o' x y e H E o L. split; [cbn [ep_set ep_objs]; unfold len in *; now rewrite upd_len|].
  destruct (N.eq_dec o' o) as [->|Ne]; [rewrite (obj_set_same _ _ _ _ H), H; exact E|]. now rewrite obj_set_other.
Qed.
Lemma in_all_on : forall sid f e s, In s (all_entries (ep_on sid f e)) -> In s (all_entries e) \/ In s (entries (f (ep_streams sid e))).
Proof.
  intros sid f e s H. apply in_all in H. unfold ep_on in H. cbn [ep_guest ep_host] in H. rewrite in_all. unfold ep_streams. destruct (N.odd sid), H; auto.
Qed.
Lemma in_all_register : forall c sid o e s, good c e -> In s (all_entries (register sid o e)) -> In s (all_entries e) \/ s = (sid, o).
Proof.
  intros c sid o e s G H. apply in_all_on in H. destruct H as [H|H]; [auto|]. destruct (tab_add _ (sid, o) (good_streams c sid e G)) as [_ W]. rewrite W in H.
  apply in_app_iff in H. destruct H as [H|[<-|[]]]; [left|now right]. apply in_all. unfold ep_streams in H. destruct (N.odd sid); auto.
Qed.
Lemma in_all_remove : forall c sid e s, good c e -> In s (all_entries (remove_stream sid e)) -> In s (all_entries e).
Proof.
  intros c sid e s G H. apply in_all_on in H. destruct H as [H|H]; [auto|]. destruct (tab_remove _ sid (good_streams c sid e G)) as (_ & W & _). apply W in H.
  apply in_all. unfold ep_streams in H. destruct (N.odd sid); auto.
Qed.
Lemma drop_job_in : forall i e j, In j (ep_jobs (drop_job i e)) -> In j (ep_jobs e).
Proof.
  intros i e y Hy. cbn [drop_job ep_jobs] in Hy. apply in_app_iff in Hy. rewrite <- (firstn_skipn i (ep_jobs e)), in_app_iff. destruct Hy as [Hy|Hy]; [now left|right].
  rewrite skipn_S_tl in Hy. destruct (skipn i (ep_jobs e)); [destruct Hy|now right].
Qed.
Lemma sent_touch : forall o (l : list frame), demanded o (map HSent l) = [] /\ called o (map HSent l) = [] /\ forall sid h p, ~ In (HInvoke RS sid h p) (map HSent l).
Proof.
  induction l as [|f l (A & B & C)]; [repeat split; auto|]. split; [exact A|]. split; [exact B|]. intros sid h p [X|X]; [discriminate|]. now apply (C sid h p).
Qed.

Lemma host_rs_view : forall sb x e e', good false e -> good false e' -> host_rs e -> serves x e = false -> view registry_init sb false x e e' -> host_rs e'.
Proof.
  intros sb x e e' G G' S Hs V.
  (* nothing changes but the trace, with events that touch no stream object *)
  assert (Calm : forall e1 ev, ep_trace e1 = ep_trace e ++ ev -> ep_objs e1 = ep_objs e -> ep_guest e1 = ep_guest e -> ep_host e1 = ep_host e -> incl (ep_jobs e1) (ep_jobs e) ->
    (forall o, demanded o ev = [] /\ called o ev = []) -> (forall sid h p, ~ In (HInvoke RS sid h p) ev) -> host_rs e1).
  { intros e1 ev T O1 O2 O3 J E1 E2. apply (host_rs_step e e1 ev S T).
    - intros s H. left. unfold all_entries in *. now rewrite O2, O3 in H.
    - auto.
    - auto.
    - intros o L. rewrite O1. unfold ep_obj. rewrite O1. auto.
    - intros o H. destruct (E1 o) as [X1 X2]. rewrite X1, X2 in H. destruct H; contradiction.
    - exact E2. }
  assert (Emit : forall ev, (forall o, demanded o ev = [] /\ called o ev = []) -> (forall sid h p, ~ In (HInvoke RS sid h p) ev) -> host_rs (ep_emit ev e)).
  { intros ev E1 E2. apply (Calm (ep_emit ev e) ev); auto using incl_refl. }
  assert (Jobs : forall js ev, (forall o n, In (JDemand o n) js -> is_rs (ep_obj o e) = false /\ o < len (ep_objs e)) ->
    (forall k r, In (JHandle k r) js -> In (HRecv (FRequest r)) ev /\ kind_code (rq_type r) = Some k) ->
    (forall o, demanded o ev <> [] \/ called o ev <> [] -> is_rs (ep_obj o e) = false /\ o < len (ep_objs e)) ->
    (forall sid h p, ~ In (HInvoke RS sid h p) ev) -> host_rs (ep_emit ev (add_jobs js e))).
  { intros js ev J1 J2 E1 E2. apply (host_rs_step e _ ev S); auto.
    - intros o n H. cbn [ep_emit add_jobs ep_jobs] in H. apply in_app_iff in H. destruct H as [H|H]; [now left|right]. now apply (J1 o n).
    - intros k r H. cbn [ep_emit add_jobs ep_jobs] in H. apply in_app_iff in H. destruct H as [H|H]; [now left|right]. now apply J2. }
  destruct V as [x e Hx|p input e|k p input b y e Hk|o y i e Ho Hl|o n s s' l e Ho Hsf|o n sid a e Ho|o s e Ho|o sid a e Ho|o ev s e Ho|o sid a b e Ho
    |s t ev e Hev|r k e Hk|r ev e Hk Hev|r js e Hjs Hm Hall|f e Hf Hg|f o y e Hf Hg Ho Hsk|i k r e e' Hj He|i o n e Hj|i o s e Hj Ho|i o e Hj Ho].
  - exact S.
  - eapply Calm; try reflexivity; [apply incl_refl|split; reflexivity|]. intros sid h q [X|[]]; discriminate.
  - eapply host_rs_step; [exact S|reflexivity|..]; auto.
    + intros o L. exact (rs_new o y (with_ids (ep_ids e + 1) e) L).
    + intros o [X|X]; cbn in X; congruence.
    + intros sid h q [X|[]]; discriminate.
  - eapply (host_rs_step e _ (HSubscribed o :: _)); [exact S|reflexivity|..]; auto.
    + intros s H. change (In s (all_entries (register i o e))) in H. apply (in_all_register false) in H; [|exact G]. destruct H as [H| ->]; [now left|]. right.
      cbn [snd]. change (ep_obj o (ep_emit ?l (register i o e))) with (ep_obj o e). rewrite Ho. split; [destruct y; try discriminate Hl; reflexivity|]. exact (obj_lt _ _ _ Ho).
    + intros o' [X|X]; destruct y; cbn in X; congruence.
    + intros sid h q [X|X]; [discriminate|]. destruct y; [destruct X as [X|[]]; discriminate|destruct X..].
  - destruct (sent_touch 0 l) as (_ & _ & W). eapply (host_rs_step e _ (HAsked o n :: map HSent l)); [exact S|reflexivity|..]; auto.
    + intros o' L. exact (rs_set o (OFlux s') (OFlux s) e Ho eq_refl o' L).
    + intros o' X. destruct (sent_touch o' l) as (W1 & W2 & _). destruct X as [X|X]; [change (demanded o' (map HSent l) <> []) in X|change (called o' (map HSent l) <> []) in X]; congruence.
    + intros sid h p [X|X]; [discriminate|]. now apply (W sid h p).
  - apply Emit; [split; reflexivity|]. intros sid' h q [X|[]]; discriminate.
  - apply Emit; [split; reflexivity|]. intros sid' h q [X|[X|[]]]; discriminate.
  - apply Emit; [split; reflexivity|]. intros sid' h q [X|[]]; discriminate.
  - apply Emit.
    + intros o'. destruct (sent_touch o' (sf_input ev s)) as (W1 & W2 & _). split; [exact W1|exact W2].
    + intros sid' h q [X|X]; [discriminate|]. destruct (sent_touch 0 (sf_input ev s)) as (_ & _ & W3). now apply (W3 sid' h q).
  - eapply (host_rs_step e _ []); [exact S|symmetry; apply app_nil_r|..]; auto.
    + intros o' L. exact (rs_set o (OReq RC sid a true) (OReq RC sid a b) e Ho eq_refl o' L).
    + intros o' [X|X]; cbn in X; congruence.
  - eapply Calm; try reflexivity; [apply incl_refl|..]; destruct Hev as [->| ->]; try (split; reflexivity); intros sid h q X; cbn in X; intuition discriminate.
  - apply Jobs.
    + intros o n [X|[]]; discriminate.
    + intros k0 r0 [X|[]]. injection X as <- <-. split; [now left|]. now rewrite <- kind_code_of.
    + intros o [X|X]; cbn in X; congruence.
    + intros sid h q [X|[]]; discriminate.
  - apply Emit; [intros o; destruct Hev as [->| ->]; split; reflexivity|]. intros sid h q X. destruct Hev as [->| ->]; cbn in X; intuition discriminate.
  - apply Jobs.
    + intros o n H. destruct Hjs as [->|(o' & Hg & ->)]; [destruct H|]. destruct H as [H|[]]. injection H as <- <-.
      assert (R := get_registered false _ _ e G Hg). exact (hr_ent e S _ _ (registered_all _ _ _ R)).
    + intros k0 r0 H. destruct Hjs as [->|(o' & Hg & ->)]; [destruct H|]. destruct H as [H|[]]; discriminate.
    + intros o [X|X]; cbn in X; congruence.
    + intros sid h q [X|[]]; discriminate.
  - apply Emit; [split; reflexivity|]. intros sid' h q [X|[X|[]]]; discriminate.
  - assert (R := get_registered false _ _ e G Hg). assert (Ok1 := hr_ent e S _ _ (registered_all _ _ _ R)).
    assert (J := Jobs (settles o y (calls_of f)) (HRecv f :: map (HCall o) (passed y (calls_of f)))).
    assert (J0 : host_rs (ep_emit (HRecv f :: map (HCall o) (passed y (calls_of f))) (add_jobs (settles o y (calls_of f)) e))).
    { apply J.
      - intros o' n H. unfold settles in H. destruct y; [destruct H| |destruct H]. apply in_map_iff in H. destruct H as (? & H & _). discriminate.
      - intros k r H. unfold settles in H. destruct y; [destruct H| |destruct H]. apply in_map_iff in H. destruct H as (? & H & _). discriminate.
      - intros o' H. assert (o' = o); [|now subst].
        destruct (N.eq_dec o' o) as [X|X]; [exact X|exfalso]. assert (Z : forall ks, demanded o' (map (HCall o) ks) = [] /\ called o' (map (HCall o) ks) = []).
        { induction ks as [|k ks [Z1 Z2]]; [split; reflexivity|]. cbn [map]. split; [exact Z1|]. cbn [called flat_map]. destruct (N.eqb_spec o o'); [congruence|]. exact Z2. }
        destruct (Z (passed y (calls_of f))) as [Z1 Z2]. destruct H as [H|H]; apply H; [exact Z1|exact Z2].
      - intros sid h p [X|X]; [discriminate|]. apply in_map_iff in X. destruct X as (? & X & _). discriminate. }
    destruct (closes f); [|exact J0]. clear J. set (e1 := ep_emit _ _) in *.
    assert (G1 : good false e1).
    { unfold e1. apply good_emit. destruct G as [g1 g2 g3 g4 g5 g6]. constructor; auto. intros k r H. cbn [add_jobs ep_jobs] in H. apply in_app_iff in H. destruct H as [H|H]; [now apply (g4 k)|].
      unfold settles in H. destruct y; [destruct H| |destruct H]. apply in_map_iff in H. destruct H as (? & H & _). discriminate. }
    eapply (host_rs_step e1 _ []); [exact J0|symmetry; apply app_nil_r|..]; auto.
    + intros s H. left. now apply (in_all_remove false) in H.
    + intros o' [X|X]; cbn in X; congruence.
  - unfold serves in Hs. rewrite Hj in Hs. discriminate.
  - eapply (host_rs_step e _ [HDemand o n]); [exact S|reflexivity|..]; auto.
    + intros o' n' H. left. exact (drop_job_in i e _ H).
    + intros k r H. left. exact (drop_job_in i e _ H).
    + intros o' H. assert (o' = o); [|subst; exact (hr_job e S o n (nth_error_In _ _ Hj))]. cbn in H. destruct (N.eqb_spec o o'); [congruence|]. destruct H; cbn in H; congruence.
    + intros sid h q [X|[]]; discriminate.
  - eapply (host_rs_step e _ [HSettled o]); [exact S|reflexivity|..]; auto.
    + intros o' n' H. left. exact (drop_job_in i e _ H).
    + intros k r H. left. exact (drop_job_in i e _ H).
    + intros o' L. exact (rs_set o (OFlux (sf_on_complete s)) (OFlux s) (drop_job i e) Ho eq_refl o' L).
    + intros o' [X|X]; cbn in X; congruence.
    + intros sid h q [X|[]]; discriminate.
  - eapply (host_rs_step e _ []); [exact S|symmetry; apply app_nil_r|..]; auto.
    + intros o' n' H. left. exact (drop_job_in i e _ H).
    + intros k r H. left. exact (drop_job_in i e _ H).
    + intros o' [X|X]; cbn in X; congruence.
Qed.
Lemma rs_init : host_rs ep_init.
Proof.
  constructor.
  - intros sid o [].
  - intros o n [].
  - intros k r [].
  - intros o [H|H]; cbn in H; congruence.
  - intros t1 sid h p t2 H. destruct t1; discriminate.
Qed.
Lemma host_rs_drop : forall i e, host_rs e -> host_rs (drop_job i e).
Proof.
  intros i e S. eapply (host_rs_step e _ []); [exact S|symmetry; apply app_nil_r|..]; auto.
  - intros o' n' H. left. exact (drop_job_in i e _ H).
  - intros k r H. left. exact (drop_job_in i e _ H).
  - intros o' [X|X]; cbn in X; congruence.
Qed.
Lemma rs_fresh : forall x e, is_rs (Some x) = false -> is_rs (ep_obj (len (ep_objs e)) (ep_new x e)) = false /\ len (ep_objs e) < len (ep_objs (ep_new x e)).
Proof. intros x e H. rewrite obj_new_new. split; [exact H|]. cbn [ep_new ep_objs]. rewrite len_app. unfold len. cbn. lia. Qed.
Lemma host_rs_request : forall sb i k r imported e e', good false e -> host_rs e -> nth_error (ep_jobs e) i = Some (JHandle k r) -> N.odd (rq_stream r) = true ->
  host_request sb imported k r (drop_job i e) = Ok e' -> host_rs e'.
Proof.
  intros sb i k r imported e0 e' G0 S0 Hj Ho H. pose proof (good_drop false i e0 G0) as G. pose proof (host_rs_drop i e0 S0) as S.
  destruct (hr_req e0 S0 k r (nth_error_In _ _ Hj)) as [Q1 Q2]. change (ep_trace e0) with (ep_trace (drop_job i e0)) in Q1.
  set (e := drop_job i e0) in *. rewrite (host_request_eq _ _ _ _ _ _ H). clear H. unfold host_answer, host_accepts.
  assert (Quiet : forall ev, (forall o, demanded o ev = [] /\ called o ev = []) -> (forall sid h p, ~ In (HInvoke RS sid h p) ev) -> host_rs (ep_emit ev e)).
  { intros ev E1 E2. eapply (host_rs_step e _ ev); [exact S|reflexivity|..]; auto. intros o X. destruct (E1 o) as [W1 W2]. rewrite W1, W2 in X. destruct X; congruence. }
  destruct (len (rq_metadata r) <? 8); [apply Quiet; [split; reflexivity|]; intros sid h p [X|[]]; discriminate|].
  destruct (imported k _) as [h|]; [|apply Quiet; [split; reflexivity|]; intros sid h p [X|[]]; discriminate]. cbn [negb andb].
  destruct k; cbn [host_opens].
  - apply Quiet; [split; reflexivity|]. intros sid h' p [X|[]]; discriminate.
  - apply Quiet; [split; reflexivity|]. intros sid h' p [X|[]]; discriminate.
  - set (o := len (ep_objs e)). set (n := Z.of_N (rq_initial r)). set (ev := [_; _]). destruct S as [A B D C I]. constructor.
    + intros sid o' X. destruct (A sid o' X) as [X1 X2]. destruct (rs_new o' (OReq RS (rq_stream r) true false) e X2) as [Y1 Y2].
      change (is_rs (ep_obj o' (ep_new (OReq RS (rq_stream r) true false) e)) = false /\ o' < len (ep_objs (ep_new (OReq RS (rq_stream r) true false) e))). rewrite Y2. auto.
    + intros o' n' X. destruct (B o' n' X) as [X1 X2]. destruct (rs_new o' (OReq RS (rq_stream r) true false) e X2) as [Y1 Y2].
      change (is_rs (ep_obj o' (ep_new (OReq RS (rq_stream r) true false) e)) = false /\ o' < len (ep_objs (ep_new (OReq RS (rq_stream r) true false) e))). rewrite Y2. auto.
    + intros k r0 X. destruct (D k r0 X) as [X1 X2]. split; [|exact X2]. cbn [ep_emit ep_trace]. apply in_app_iff. left. exact X1.
    + intros o' X. change (o' < len (ep_objs (ep_new (OReq RS (rq_stream r) true false) e))). cbn [ep_new ep_objs]. rewrite len_app. change (len [OReq RS (rq_stream r) true false]) with 1.
      destruct (N.eq_dec o' o) as [->|Ne]; [unfold o; lia|]. assert (o' < len (ep_objs e)); [|lia]. apply C.
      cbn [ep_emit ep_trace ep_new] in X. rewrite demanded_app, called_app in X.
      replace (demanded o' ev) with (@nil Z) in X by (cbn; destruct (N.eqb_spec o o'); [congruence|reflexivity]).
      replace (called o' ev) with (@nil scall) in X by reflexivity. now rewrite !app_nil_r in X.
    + intros t1 sid h' p t2 X. cbn [ep_emit ep_trace ep_new] in X. apply split_at2 in X. destruct X as [(t & X & ->)|(t & -> & X)].
      * destruct (I t1 sid h' p t X) as (o' & r' & t3 & -> & J1 & J2 & J3 & J4 & J5 & J6 & J7 & J8).
        assert (Lo : o' < len (ep_objs e)).
        { apply C. left. rewrite X, demanded_app. cbn [demanded flat_map]. rewrite N.eqb_refl. cbn. intros Y. apply app_eq_nil in Y. destruct Y as [_ Y]. discriminate Y. }
        exists o', r', (t3 ++ ev). split; [reflexivity|]. destruct (rs_new o' (OReq RS (rq_stream r) true false) e Lo) as [_ Y2].
        split; [etransitivity; [exact Y2|exact J1]|]. rewrite demanded_app, called_app, J3, J5.
        replace (demanded o' ev) with (@nil Z) by (cbn; destruct (N.eqb_spec o o'); [subst o'; unfold o in Lo; lia|reflexivity]). auto 10.
      * assert (t = [] /\ sid = rq_stream r /\ t2 = [HDemand o n]) as (-> & -> & ->).
        { unfold ev in X. destruct t as [|y t]; cbn in X; [injection X as -> _ _ ->; auto|]. injection X as _ X. destruct t as [|z t]; cbn in X; [discriminate|]. injection X as _ X. now destruct t. }
        exists o, r, []. split; [reflexivity|]. split; [change (is_rs (ep_obj o (ep_new (OReq RS (rq_stream r) true false) e)) = true); unfold o; now rewrite obj_new_new|].
        rewrite app_nil_r. assert (Fr : demanded o (ep_trace e) = [] /\ called o (ep_trace e) = []).
        { assert (Z := C o). destruct (demanded o (ep_trace e)); [|assert (o < len (ep_objs e)) by (apply Z; left; discriminate); unfold o in *; lia].
          destruct (called o (ep_trace e)); [auto|assert (o < len (ep_objs e)) by (apply Z; right; discriminate); unfold o in *; lia]. }
        destruct Fr as [Fr1 Fr2]. rewrite Fr1, Fr2. repeat split; auto.
  - set (o := len (ep_objs e)). set (x := OReq RC (rq_stream r) true false).
    assert (Gx : good false (ep_new x e)) by (apply good_new; [exact G|discriminate|]; intros k0 sid0 a0 b0 E; injection E as _ <- _ _; exact Ho).
    destruct (rs_fresh x e eq_refl) as [F1 F2]. eapply (host_rs_step e _ [_; _]); [exact S|reflexivity|..]; auto.
    + intros s X. change (In s (all_entries (register (rq_stream r) o (ep_new x e)))) in X. apply (in_all_register false) in X; [|exact Gx]. destruct X as [X| ->]; [now left|right]. split; [exact F1|exact F2].
    + intros o' L. exact (rs_new o' x e L).
    + intros o' X. cbn [demanded called flat_map app] in X. destruct (N.eqb_spec o o') as [Eo|Ne]; [rewrite <- Eo; split; [exact F1|exact F2]|]. destruct X as [X|X]; now destruct X.
    + intros sid h2 p [X|[X|[]]]; discriminate.
Qed.
(** Whatever the guest sends: a stream handler's flux gets exactly one demand,
    the initial one of a request received before, and its stream object is never
    told anything else: no further demand, no cancellation. *)
Theorem C82_only_the_initial_demand :
  forall sb l e, host_history sb l e ->
    forall t1 sid h p t2, ep_trace e = t1 ++ HInvoke RS sid h p :: t2 ->
      exists o r t3, t2 = HDemand o (Z.of_N (rq_initial r)) :: t3 /\ In (HRecv (FRequest r)) t1 /\ kind_code (rq_type r) = Some RS /\ rq_stream r = sid /\
        demanded o (ep_trace e) = [Z.of_N (rq_initial r)] /\ called o (ep_trace e) = [].
Proof.
  intros sb l e (H & C & P). assert (R : host_rs e).
  { apply (host_inv sb (fun _ => True) host_rs) with (l := l); auto using rs_init; [| | | |lia].
    - intros x e0 e1 G G' S _ Hs _ _ V. exact (host_rs_view sb x e0 e1 G G' S Hs V).
    - intros f e0 G S _. eapply (host_rs_step e0 _ [HRecv f]); [exact S|reflexivity|..]; auto.
      + intros o [X|X]; cbn in X; congruence.
      + intros sid h p [X|[]]; discriminate.
    - intros i k r im e0 e1 _ G _ S Hj Ho E. exact (host_rs_request sb i k r im e0 e1 G S Hj Ho E).
    - apply Forall_forall. auto. }
  intros t1 sid h p t2 E. destruct (hr_inv e R t1 sid h p t2 E) as (o & r & t3 & -> & J1 & J2 & J3 & J4 & J5 & J6 & J7 & J8).
  exists o, r, t3. split; [reflexivity|]. split; [exact J6|]. split; [exact J7|]. split; [exact J8|].
  rewrite E, demanded_app, called_app, J2, J4. cbn [app demanded called flat_map]. rewrite N.eqb_refl. fold (demanded o t3). fold (called o t3). rewrite J3, J5. split; reflexivity.
Qed.
(** So a stream handler that answers from a slice ([flux.FromSlice], C53) with
    more values than the initial demand never completes, however often the guest
    asks for more. *)
Theorem C82_slice_stops_at_the_initial_demand :
  forall sb l e, host_history sb l e ->
    forall t1 sid h p t2, ep_trace e = t1 ++ HInvoke RS sid h p :: t2 ->
      exists o r t3, t2 = HDemand o (Z.of_N (rq_initial r)) :: t3 /\ rq_stream r = sid /\ In (HRecv (FRequest r)) t1 /\
        forall V (values : list V) ops, one_subscriber ops -> asked_for ops = demanded o (ep_trace e) -> (N.to_nat (rq_initial r) < List.length values)%nat ->
          let c := race_run SHead slice_body ops values in
          rc_complete c = [] /\ (all_returned c -> rc_next c = map (pair 0%nat) (firstn (N.to_nat (rq_initial r)) values)).
Proof.
  intros sb l e H t1 sid h p t2 E. destruct (C82_only_the_initial_demand sb l e H t1 sid h p t2 E) as (o & r & t3 & E2 & R1 & R2 & R3 & D & _).
  exists o, r, t3. do 3 (split; [assumption|]). intros V values ops H1 H2 H3 c. rewrite D in H2.
  destruct (C53_any_interleaving V ops values H1) as (_ & _ & _ & X1 & X2). fold c in X1, X2. rewrite H2 in X1, X2.
  replace (sum_asked [Z.of_N (rq_initial r)]) with (N.to_nat (rq_initial r)) in X1, X2 by (unfold sum_asked; cbn; lia).
  split; [|intros A; now apply X2]. destruct (rc_complete c) as [|q qs]; [reflexivity|]. destruct X1 as [X1 _]; [discriminate|]. lia.
Qed.
(** A guest opens a stream with initial demand 2, asks for 5 more and cancels. *)
Definition c82_history : list (hop * (kind -> N -> option N)) := map (fun x => (x, fun _ _ => Some 31))
  [XFrame (req 6 1 [0; 0; 0; 0; 0; 0; 0; 0] [8] 2); XJob 0; XFrame (FRequestN {| rn_stream := 1; rn_n := 5 |}); XJob 0; XFrame (FCancel {| cn_stream := 1 |})].
Definition c82_end : ep := match host_run (fun _ => true) c82_history ep_init with Ok e => e | _ => ep_init end.
Definition c82_ops : list race_op := RSpawn 0 2 :: repeat (RStep 0) 20.
Example C82_example :
  host_history (fun _ => true) c82_history c82_end /\
  (exists t1 p t2, ep_trace c82_end = t1 ++ HInvoke RS 1 31 p :: HDemand 0 2 :: t2 /\ In (HRecv (FRequestN {| rn_stream := 1; rn_n := 5 |})) t2) /\
  demanded 0 (ep_trace c82_end) = [2%Z] /\ one_subscriber c82_ops /\ asked_for c82_ops = [2%Z] /\ all_returned (race_run SHead slice_body c82_ops [7; 8; 9]).
Proof.
  split; [split; [vm_compute; reflexivity|split; [vm_compute; reflexivity|repeat constructor]]|].
  split; [eexists [_], _, _; split; [vm_compute; reflexivity|left; reflexivity]|]. split; [reflexivity|]. split; [apply one_subscriber_bool; reflexivity|].
  split; [reflexivity|]. assert (E : map g_phase (rc_go (race_run SHead slice_body c82_ops [7; 8; 9])) = [GReturned]) by (vm_compute; reflexivity).
  intros g H. apply (in_map g_phase) in H. rewrite E in H. now destruct H as [H|[]].
Qed.
Print Assumptions C82_only_the_initial_demand.
Print Assumptions C82_slice_stops_at_the_initial_demand.

(** ** C83: streams served by an end made of [handler], or by a guest *)
(** RequestN frames received on a stream. *)
Definition more (sid : N) (t : list hevent) : list Z :=
  flat_map (fun x => match x with HRecv (FRequestN r) => if rn_stream r =? sid then [Z.of_N (rn_n r)] else [] | _ => [] end) t.
Definition waiting (o : N) (e : ep) : list Z := flat_map (fun j => match j with JDemand o' n => if o' =? o then [n] else [] | _ => [] end) (ep_jobs e).
Lemma more_app : forall sid a b, more sid (a ++ b) = more sid a ++ more sid b.
Proof. intros. apply flat_map_app. Qed.
Lemma waiting_drop : forall o i e j, nth_error (ep_jobs e) i = Some j ->
  Permutation (waiting o e) (match j with JDemand o' n => if o' =? o then [n] else [] | _ => [] end ++ waiting o (drop_job i e)).
Proof.
  intros o i e j H. unfold waiting. cbn [drop_job ep_jobs]. apply nth_error_split in H. destruct H as (a & b & -> & <-).
  rewrite firstn_app, Nat.sub_diag, firstn_all. cbn [firstn]. rewrite app_nil_r.
  replace (skipn (S (List.length a)) (a ++ j :: b)) with b by (clear; induction a; [reflexivity|exact IHa]).
  rewrite !flat_map_app. cbn [flat_map]. rewrite !app_assoc. apply Permutation_app_tail, Permutation_app_comm.
Qed.
Record stream_ok (e : ep) : Prop := {
  st_old : forall o, demanded o (ep_trace e) <> [] \/ waiting o e <> [] -> o < len (ep_objs e);
  st_next : forall t1 sid h p t2, ep_trace e = t1 ++ HInvoke RS sid h p :: t2 ->
    exists o r t3, t2 = HDemand o (Z.of_N (rq_initial r)) :: t3 /\ In (HRecv (FRequest r)) t1 /\ kind_code (rq_type r) = Some RS /\ rq_stream r = sid /\
      ep_obj o e = Some (OReq RS sid true false) /\ demanded o t1 = [] /\ Permutation (demanded o t3 ++ waiting o e) (more sid t3) }.
(** A step that invokes no stream handler. *)
Lemma stream_step : forall e e' ev, stream_ok e -> ep_trace e' = ep_trace e ++ ev ->
  (forall o, o < len (ep_objs e) -> o < len (ep_objs e')) ->
  (forall o sid, ep_obj o e = Some (OReq RS sid true false) -> ep_obj o e' = Some (OReq RS sid true false)) ->
  (forall o, demanded o ev <> [] -> o < len (ep_objs e')) -> (forall o, waiting o e' <> [] -> waiting o e <> [] \/ o < len (ep_objs e')) ->
  (forall sid h p, ~ In (HInvoke RS sid h p) ev) ->
  (forall o sid, ep_obj o e = Some (OReq RS sid true false) -> Permutation (demanded o ev ++ waiting o e') (waiting o e ++ more sid ev)) -> stream_ok e'.
Proof.
  intros e e' ev [A B] T L O D1 D2 I P. constructor.
  - intros o. rewrite T, demanded_app. intros [X|X].
    + destruct (demanded o (ep_trace e)) eqn:X1; [now apply D1|]. apply L, A. left. rewrite X1. discriminate.
    + destruct (D2 o X) as [X1|X1]; [|exact X1]. apply L, A. now right.
  - intros t1 sid h p t2 H. rewrite T in H. apply split_at in H; [|apply I]. destruct H as (t & H & ->).
    destruct (B t1 sid h p t H) as (o & r & t3 & -> & J1 & J2 & J3 & J4 & J5 & J6). exists o, r, (t3 ++ ev). do 4 (split; [now try reflexivity|]).
    split; [now apply O|]. split; [exact J5|]. rewrite demanded_app, more_app, <- app_assoc. rewrite (P o sid J4). rewrite app_assoc. now apply Permutation_app_tail.
Qed.
Lemma waiting_add : forall o js e, waiting o (add_jobs js e) = waiting o e ++ flat_map (fun j => match j with JDemand o' n => if o' =? o then [n] else [] | _ => [] end) js.
Proof. intros. unfold waiting. cbn [add_jobs ep_jobs]. apply flat_map_app. Qed.
Lemma settles_wait : forall o y ks o', flat_map (fun j => match j with JDemand o'0 n => if o'0 =? o' then [n] else [] | _ => [] end) (settles o y ks) = [].
Proof. intros. unfold settles. destruct y; [reflexivity| |reflexivity]. now induction (filter is_complete ks). Qed.
(** In a reachable state the stream registered under an id that was served is that stream. *)
Lemma serving_unique : forall c e o sid o', good c e -> serve_ok c e -> NoDup (rids (ep_trace e)) -> ep_obj o e = Some (OReq RS sid true false) ->
  (get_stream sid e = Some o' <-> o' = o).
Proof.
  intros c e o sid o' G S ND Ho.
  assert (U : forall o2, get_stream sid e = Some o2 -> o2 = o).
  { intros o2 Hg. assert (R := get_registered c _ _ e G Hg). destruct (registered_obj c _ _ e G R) as (y & Y1 & Y2).
    destruct y as [q|q|k2 sid2 a2 b2]; cbn in Y2.
    1,2: destruct (g_loc c e G o2 _ _ Y1 eq_refl) as (p & _ & P); cbn in P; pose proof (g_peer c e G _ _ _ _ _ Ho) as Q; rewrite <- Y2, P, nth_id_odd in Q; now destruct c.
    subst sid2. destruct (so_ids c e S ND) as [S1 _]. apply nodup_app in S1. destruct S1 as (S1 & _ & _).
    apply N2Nat.inj. eapply (nodup_positions (ep_objs e)); [exact S1|exact Y1|exact Ho|now left|now left]. }
  split; [apply U|]. intros ->. pose proof (so_reg c e S ND o RS sid true Ho) as R. destruct (registered_get c _ _ e G R) as (o2 & H2 & _). now rewrite <- (U o2 H2).
Qed.
Lemma dispatched_demanded : forall reg k r o o', o <> o' -> demanded o' (dispatched reg k r o) = [].
Proof.
  intros reg k r o o' H. unfold dispatched. destruct (len (rq_metadata r) <? 8); [reflexivity|]. destruct (do_get k reg _); [|reflexivity].
  apply N.eqb_neq in H. destruct k; cbn; rewrite ?H; reflexivity.
Qed.
Lemma stream_view : forall reg sb c x e e', good c e -> good c e' -> serve_ok c e -> NoDup (rids (ep_trace e)) -> (forall k r, In (JHandle k r) (ep_jobs e) -> In (HRecv (FRequest r)) (ep_trace e) /\ kind_code (rq_type r) = Some k) ->
  stream_ok e -> view reg sb c x e e' -> stream_ok e'.
Proof.
  intros reg sb c x e e' G G' SO ND JR S V.
  assert (VO : forall o sid, ep_obj o e = Some (OReq RS sid true false) -> ep_obj o e' = Some (OReq RS sid true false)).
  { intros o sid H. destruct (view_objs _ _ _ _ _ _ V o RS sid true false H) as (b & H1 & [->|[H2 _]]); [exact H1|discriminate]. }
  assert (Keep : forall e1 ev, e1 = e' -> ep_trace e1 = ep_trace e ++ ev -> (forall o, o < len (ep_objs e) -> o < len (ep_objs e1)) -> (forall o, Permutation (waiting o e1) (waiting o e)) ->
    (forall o, demanded o ev = []) -> (forall sid h p, ~ In (HInvoke RS sid h p) ev) -> (forall sid, more sid ev = []) -> stream_ok e1).
  { intros e1 ev -> T L W D I M. apply (stream_step e e' ev S T); auto.
    - intros o X. now rewrite D in X.
    - intros o X. left. intros Y. apply X. specialize (W o). rewrite Y in W. now apply Permutation_sym, Permutation_nil in W.
    - intros o sid H. rewrite D, M, app_nil_r. apply W. }
  assert (New : forall y e1, ep_objs e1 = ep_objs e ++ [y] -> forall o, o < len (ep_objs e) -> o < len (ep_objs e1)).
  { intros y e1 E o L. rewrite E, len_app. lia. }
  assert (Sent : forall l : list frame, (forall o, demanded o (map HSent l) = []) /\ (forall sid h p, ~ In (HInvoke RS sid h p) (map HSent l)) /\ forall sid, more sid (map HSent l) = []).
  { intros l. split; [intros o; apply (sent_touch o l)|]. split; [apply (sent_touch 0 l)|]. induction l; auto. }
  destruct V as [x e Hx|p input e|k p input b y e Hk|o y i e Ho Hl|o n s s' l e Ho Hsf|o n sid a e Ho|o s e Ho|o sid a e Ho|o ev s e Ho|o sid a b e Ho
    |s t ev e Hev|r k e Hk|r ev e Hk Hev|r js e Hjs Hm Hall|f e Hf Hg|f o y e Hf Hg Ho Hsk|i k r e e' Hj He|i o n e Hj|i o s e Hj Ho|i o e Hj Ho].
  - exact S.
  - eapply Keep; try reflexivity; auto. intros sid h q [X|[]]; discriminate.
  - eapply Keep; try reflexivity; auto; [apply (New y); reflexivity|]. intros sid h q [X|[]]; discriminate.
  - eapply (Keep _ (HSubscribed o :: _)); try reflexivity; auto; destruct y; try reflexivity; intros s1 h q X; cbn in X; intuition discriminate.
  - destruct (Sent l) as (W1 & W2 & W3). eapply (Keep _ (HAsked o n :: map HSent l)); try reflexivity; auto.
    + intros o' L. exact (proj1 (rs_set o (OFlux s') (OFlux s) e Ho eq_refl o' L)).
    + intros sid h p [X|X]; [discriminate|]. now apply (W2 sid h p).
  - eapply Keep; try reflexivity; auto. intros sid' h q [X|[]]; discriminate.
  - eapply (Keep _ (HDropped o :: map HSent (sf_cancel s))); try reflexivity; auto. intros sid' h q [X|[X|[]]]; discriminate.
  - eapply Keep; try reflexivity; auto. intros sid' h q [X|[]]; discriminate.
  - destruct (Sent (sf_input ev s)) as (W1 & W2 & W3). eapply (Keep _ (HFed o ev :: map HSent (sf_input ev s))); try reflexivity; auto.
    intros sid h p [X|X]; [discriminate|]. now apply (W2 sid h p).
  - eapply (Keep _ []); try reflexivity; auto; [symmetry; apply app_nil_r|]. intros o' L. exact (proj1 (rs_set o (OReq RC sid a true) (OReq RC sid a b) e Ho eq_refl o' L)).
  - eapply (Keep _ (HRecv (FSetup s) :: ev)); try reflexivity; auto; destruct Hev as [->| ->]; try reflexivity; intros sid h q X; cbn in X; intuition discriminate.
  - eapply (Keep _ [HRecv (FRequest r)]); try reflexivity; auto; [|intros sid h q [X|[]]; discriminate].
    intros o. change (waiting o (ep_emit ?l ?x)) with (waiting o x). rewrite waiting_add. cbn. now rewrite app_nil_r.
  - eapply (Keep _ (HRecv (FRequest r) :: ev)); try reflexivity; auto; destruct Hev as [->| ->]; try reflexivity; intros sid h q X; cbn in X; intuition discriminate.
  - eapply (stream_step e _ [HRecv (FRequestN r)]); [exact S|reflexivity|..]; auto.
    + intros o X. cbn in X. congruence.
    + intros o X. change (waiting o (add_jobs js e) <> []) in X. rewrite waiting_add in X.
      destruct (waiting o e); [|left; discriminate]. right. cbn [app] in X. destruct Hjs as [->|(o' & Hg & ->)]; [now destruct X|]. cbn in X.
      destruct (N.eqb_spec o' o) as [->|?]; [|now destruct X]. assert (R := get_registered c _ _ e G Hg). destruct (registered_obj c _ _ e G R) as (y & Y1 & _). exact (obj_lt _ _ _ Y1).
    + intros sid h q [X|[]]; discriminate.
    + intros o sid Ho. change (waiting o (ep_emit ?l ?x)) with (waiting o x). rewrite waiting_add. cbn [demanded flat_map app more]. rewrite app_nil_r.
      apply Permutation_app_head. destruct (N.eqb_spec (rn_stream r) sid) as [Es|Es].
      * assert (Hg : get_stream (rn_stream r) e = Some o) by (rewrite Es; now apply (serving_unique c e o sid o G SO ND Ho)).
        rewrite (Hall o Hg). cbn. now rewrite N.eqb_refl.
      * destruct Hjs as [->|(o' & Hg & ->)]; [constructor|]. cbn. destruct (N.eqb_spec o' o) as [->|?]; [|constructor]. exfalso. apply Es.
        assert (R := get_registered c _ _ e G Hg). destruct (registered_obj c _ _ e G R) as (y & Y1 & Y2). rewrite Ho in Y1. injection Y1 as <-. now symmetry.
  - eapply (Keep _ [HRecv f; HRejected]); try reflexivity; auto; [intros sid' h q [X|[X|[]]]; discriminate|]. intros sid. destruct f; try discriminate Hf; reflexivity.
  - assert (C1 : forall ks, (forall o', demanded o' (map (HCall o) ks) = []) /\ (forall sid h p, ~ In (HInvoke RS sid h p) (map (HCall o) ks)) /\ forall sid, more sid (map (HCall o) ks) = []).
    { induction ks as [|k ks (Z1 & Z2 & Z3)]; [repeat split; auto|]. cbn [map]. split; [exact Z1|]. split; [|exact Z3]. intros sid h p [X|X]; [discriminate|]. now apply (Z2 sid h p). }
    destruct (C1 (passed y (calls_of f))) as (Z1 & Z2 & Z3). eapply (Keep _ (HRecv f :: map (HCall o) (passed y (calls_of f)))); try reflexivity.
    + destruct (closes f); reflexivity.
    + intros o' L. destruct (closes f); exact L.
    + intros o'. replace (waiting o' _) with (waiting o' (add_jobs (settles o y (calls_of f)) e)) by (destruct (closes f); reflexivity).
      rewrite waiting_add, settles_wait. now rewrite app_nil_r.
    + exact Z1.
    + intros sid h p [X|X]; [discriminate|]. now apply (Z2 sid h p).
    + intros sid. transitivity (more sid [HRecv f] ++ more sid (map (HCall o) (passed y (calls_of f)))); [exact (more_app sid [HRecv f] _)|]. rewrite Z3, app_nil_r. destruct f; try discriminate Hf; reflexivity.
  - pose proof (handle_request_eq _ _ _ _ _ _ He) as E. set (e1 := drop_job i e) in *.
    assert (Wd : forall o, Permutation (waiting o e1) (waiting o e)) by (intros o; rewrite (waiting_drop o i e _ Hj); reflexivity).
    assert (Fresh : forall o, demanded o (ep_trace e) <> [] \/ waiting o e <> [] -> o < len (ep_objs e)) by apply (st_old e S).
    set (o := len (ep_objs e1)) in *. change (len (ep_objs e1)) with (len (ep_objs e)) in *.
    assert (Tr : ep_trace e' = ep_trace e ++ dispatched reg k r o) by (rewrite E; destruct (accepted reg k r && opens k); reflexivity).
    assert (We : forall o', waiting o' e' = waiting o' e1) by (intros o'; rewrite E; destruct (accepted reg k r && opens k); reflexivity).
    assert (Ob : forall o', o' < len (ep_objs e) -> o' < len (ep_objs e')).
    { intros o' L. rewrite E. destruct (accepted reg k r && opens k); [|exact L].
      change (o' < len (ep_objs (ep_new (OReq k (rq_stream r) (has_sub k) false) e1))). cbn [ep_new ep_objs]. rewrite len_app. change (len (ep_objs e1)) with (len (ep_objs e)). lia. }
    assert (Mr : forall sid, more sid (dispatched reg k r o) = []).
    { intros sid. unfold dispatched. destruct (len (rq_metadata r) <? 8); [reflexivity|]. destruct (do_get k reg _); [destruct k|]; reflexivity. }
    assert (Wn : waiting o e = []).
    { destruct (waiting o e) eqn:X; [reflexivity|]. assert (o < len (ep_objs e)) by (apply Fresh; right; rewrite X; discriminate). unfold o in *. change (len (ep_objs e1)) with (len (ep_objs e)) in *. lia. }
    destruct (accepted reg k r) eqn:Ea.
    2:{ eapply (Keep e' (dispatched reg k r o) eq_refl Tr); auto.
        - intros o'. rewrite We. apply Wd.
        - intros o'. unfold dispatched, accepted in *. destruct (len (rq_metadata r) <? 8); [reflexivity|]. destruct (do_get k reg _); [discriminate|reflexivity].
        - intros sid h q. unfold dispatched, accepted in *. destruct (len (rq_metadata r) <? 8); [intros [X|[]]; discriminate|]. destruct (do_get k reg _); [discriminate|intros [X|[]]; discriminate]. }
    destruct (match k with RS => true | _ => false end) eqn:Ers.
    + destruct k; try discriminate Ers. cbn [andb opens] in E. destruct (JR RS r (nth_error_In _ _ Hj)) as [R1 R2].
      unfold dispatched, accepted in *. destruct (len (rq_metadata r) <? 8); [discriminate|]. destruct (do_get RS reg _) as [h0|]; [|discriminate].
      assert (Onew : ep_obj o e' = Some (OReq RS (rq_stream r) true false)) by (rewrite E; exact (obj_new_new (OReq RS (rq_stream r) true false) e1)).
      assert (Dn : demanded o (ep_trace e) = []).
      { destruct (demanded o (ep_trace e)) eqn:X; [reflexivity|]. assert (o < len (ep_objs e)) by (apply Fresh; left; rewrite X; discriminate). unfold o in *. change (len (ep_objs e1)) with (len (ep_objs e)) in *. lia. }
      constructor.
      * intros o' X. rewrite Tr, demanded_app in X. destruct (N.eq_dec o' o) as [->|Ne]; [exact (obj_lt _ _ _ Onew)|]. apply Ob, Fresh.
        destruct X as [X|X]; [left|right].
        -- intros Y. rewrite Y in X. apply X. cbn. destruct (N.eqb_spec o o'); [congruence|reflexivity].
        -- rewrite We in X. intros Y. specialize (Wd o'). rewrite Y in Wd. apply Permutation_sym, Permutation_nil in Wd. contradiction.
      * intros t1 sid h p t2 X. rewrite Tr in X. apply split_at2 in X. destruct X as [(t & X & ->)|(t & -> & X)].
        -- destruct (st_next e S t1 sid h p t X) as (o' & r' & t3 & -> & J1 & J2 & J3 & J4 & J5 & J6).
           assert (Ne : o <> o') by (intros Y; pose proof (obj_lt _ _ _ J4) as Z; rewrite <- Y in Z; unfold o in Z; change (len (ep_objs e1)) with (len (ep_objs e)) in Z; lia).
           eexists o', r', (t3 ++ _). split; [reflexivity|]. do 3 (split; [assumption|]). split; [now apply VO|]. split; [exact J5|].
           rewrite demanded_app, more_app, We, Wd. replace (demanded o' [_; _]) with (@nil Z) by (cbn; destruct (N.eqb_spec o o'); [congruence|reflexivity]).
           cbn [more flat_map]. now rewrite !app_nil_r.
        -- assert (t = [] /\ sid = rq_stream r /\ t2 = [HDemand o (Z.of_N (rq_initial r))]) as (-> & -> & ->).
           { destruct t as [|y t]; cbn in X; [injection X as -> _ _ ->; auto|]. injection X as _ X. destruct t as [|z t]; cbn in X; [discriminate|]. injection X as _ X. now destruct t. }
           exists o, r, []. split; [reflexivity|]. rewrite app_nil_r. do 3 (split; [assumption||reflexivity|]). split; [exact Onew|]. split; [exact Dn|].
           cbn [demanded flat_map app more]. rewrite We. specialize (Wd o). rewrite Wn in Wd. exact Wd.
    + eapply (stream_step e e' _ S Tr); auto.
      * intros o' X. assert (o' = o).
        { destruct (N.eq_dec o' o) as [Y|Y]; [exact Y|]. exfalso. apply X. apply dispatched_demanded. congruence. }
        subst o'. rewrite E. destruct k; try discriminate Ers; cbn [andb opens].
        -- exfalso. apply X. unfold dispatched. destruct (len (rq_metadata r) <? 8); [reflexivity|]. now destruct (do_get RR reg _).
        -- exact (obj_lt _ _ _ (obj_new_new (OReq FNF (rq_stream r) (has_sub FNF) false) e1)).
        -- exact (obj_lt _ _ _ (obj_new_new (OReq RC (rq_stream r) (has_sub RC) false) e1)).
      * intros o' X. left. rewrite We in X. intros Y. specialize (Wd o'). rewrite Y in Wd. apply Permutation_sym, Permutation_nil in Wd. contradiction.
      * intros sid h q X. unfold dispatched in X. destruct (len (rq_metadata r) <? 8); [destruct X as [X|[]]; discriminate|]. destruct (do_get k reg _); [|destruct X as [X|[]]; discriminate].
        destruct k; try discriminate Ers; cbn in X; destruct X as [X|X]; try discriminate; try (destruct X as [X|[]]; discriminate); destruct X.
      * intros o' sid Ho. rewrite We, Wd, Mr, app_nil_r. replace (demanded o' (dispatched reg k r o)) with (@nil Z); [reflexivity|]. symmetry.
        assert (Ne : o <> o') by (intros Y; pose proof (obj_lt _ _ _ Ho) as Z; rewrite <- Y in Z; unfold o in Z; change (len (ep_objs e1)) with (len (ep_objs e)) in Z; lia).
        now apply dispatched_demanded.
  - pose proof (waiting_drop o i e _ Hj) as Wo. cbn in Wo. rewrite N.eqb_refl in Wo. cbn [app] in Wo.
    assert (Lo : o < len (ep_objs e)). { apply (st_old e S). right. intros X. rewrite X in Wo. now apply Permutation_nil in Wo. }
    eapply (stream_step e _ [HDemand o n]); [exact S|reflexivity|..]; auto.
    + intros o' X. destruct (N.eq_dec o' o) as [Eo|Eo]; [rewrite Eo; exact Lo|]. exfalso. apply X. cbn [demanded flat_map]. apply N.neq_sym, N.eqb_neq in Eo. now rewrite Eo.
    + intros o' X. change (waiting o' (drop_job i e) <> []) in X. left. intros Y. pose proof (waiting_drop o' i e _ Hj) as W. rewrite Y in W. apply Permutation_nil in W.
      apply app_eq_nil in W. destruct W as [_ W]. contradiction.
    + intros sid h q [X|[]]; discriminate.
    + intros o' sid Ho. change (waiting o' (ep_emit ?l ?x)) with (waiting o' x). rewrite (waiting_drop o' i e _ Hj). cbn [demanded more flat_map app]. rewrite !app_nil_r. apply Permutation_refl.
  - eapply (Keep _ [HSettled o]); try reflexivity; auto.
    + intros o' L. exact (proj1 (rs_set o (OFlux (sf_on_complete s)) (OFlux s) (drop_job i e) Ho eq_refl o' L)).
    + intros o'. exact (Permutation_sym (waiting_drop o' i e _ Hj)).
    + intros sid h q [X|[]]; discriminate.
  - eapply (Keep _ []); try reflexivity; auto; [symmetry; apply app_nil_r|]. intros o'. exact (Permutation_sym (waiting_drop o' i e _ Hj)).
Qed.
Lemma stream_init : stream_ok ep_init.
Proof.
  constructor; [intros o [X|X]; cbn in X; congruence|]. intros t1 sid h p t2 X. destruct t1; discriminate X.
Qed.
Lemma in_requests : forall k r t, In (k, r) (requests t) -> In (HRecv (FRequest r)) t /\ kind_code (rq_type r) = Some k.
Proof.
  intros k r t H. unfold requests in H. apply in_flat_map in H. destruct H as (x & H1 & H2). destruct x; try (now destruct H2).
  match goal with f : frame |- _ => destruct f as [|q| | | |]; try (now destruct H2) end. destruct (kind_code (rq_type q)) eqn:E; [|now destruct H2]. destruct H2 as [H2|[]]. injection H2 as -> ->. auto.
Qed.
Lemma history_stream : forall reg sb client l e, history reg sb client l e -> NoDup (rids (ep_trace e)) -> stream_ok e.
Proof.
  intros reg sb client l e (H & C & P).
  apply (run_inv reg sb client (fun e => (NoDup (rids (ep_trace e)) -> stream_ok e) /\ serve_ok client e /\ sent_ok client e)) with (l := l); auto; [| |lia].
  - split; [intros _; apply stream_init|]. split; [apply serve_init|apply sent_ok_init].
  - intros x e0 e1 G G' (S1 & S2 & S3) Hc Hr V. split; [|split; [exact (serve_view reg sb client x e0 e1 G G' S2 Hc Hr V)|exact (sent_ok_view reg sb client x e0 e1 G G' S3 Hc Hr V)]].
    intros ND. destruct (view_grows _ _ _ _ _ _ V) as (ev & T & _). rewrite T, rids_app in ND. apply nodup_app in ND. destruct ND as (ND & _).
    apply (stream_view reg sb client x e0 e1 G G' S2 ND); [|now apply S1|exact V]. intros k r Hj. apply in_requests. exact (st_jobs client e0 S3 k r Hj).
Qed.
(** Every RequestN that arrives on the stream after the handler was invoked
    reaches the handler's subscription once, with its number; the initial demand of
    the request is passed on first; nothing else reaches it. *)
Theorem C83_demand_is_passed_on :
  forall reg sb client l e, history reg sb client l e -> NoDup (rids (ep_trace e)) ->
    forall t1 sid h p t2, ep_trace e = t1 ++ HInvoke RS sid h p :: t2 ->
      exists o r t3, t2 = HDemand o (Z.of_N (rq_initial r)) :: t3 /\ In (HRecv (FRequest r)) t1 /\ kind_code (rq_type r) = Some RS /\ rq_stream r = sid /\
        Permutation (demanded o (ep_trace e) ++ waiting o e) (Z.of_N (rq_initial r) :: more sid t3).
Proof.
  intros reg sb client l e H ND t1 sid h p t2 E. destruct (st_next e (history_stream reg sb client l e H ND) t1 sid h p t2 E) as (o & r & t3 & -> & J1 & J2 & J3 & J4 & J5 & J6).
  exists o, r, t3. do 4 (split; [assumption||reflexivity|]). rewrite E, demanded_app, J5. cbn [app demanded flat_map]. rewrite N.eqb_refl. cbn [app]. fold (demanded o t3).
  now apply perm_skip.
Qed.
(** What arrives earlier, between the request and its handler, is lost: the peer
    asks for 2 and then for 5 more, the handler is asked for 2. *)
Definition c83_exports : list reg_call := [CExport RS ([97], [98]) 11].
Definition c83_late : list hop :=
  [XFrame (req 6 1 [0; 0; 0; 0; 0; 0; 0; 0] [8] 2); XJob 0; XFrame (FRequestN {| rn_stream := 1; rn_n := 5 |}); XFrame (FRequestN {| rn_stream := 1; rn_n := 3 |}); XJob 1; XJob 0].
Definition c83_early : list hop :=
  [XFrame (req 6 1 [0; 0; 0; 0; 0; 0; 0; 0] [8] 2); XFrame (FRequestN {| rn_stream := 1; rn_n := 5 |}); XJob 0].
Definition c83_end (l : list hop) : ep := match hrun (reg_run c83_exports) (fun _ => true) false l ep_init with Ok e => e | _ => ep_init end.
Theorem C83_early_demand_lost_refuted :
  ~ (forall reg sb client l e, history reg sb client l e -> NoDup (rids (ep_trace e)) -> ep_jobs e = [] ->
       forall t1 sid h p t2, ep_trace e = t1 ++ HInvoke RS sid h p :: t2 ->
         exists o r t3, t2 = HDemand o (Z.of_N (rq_initial r)) :: t3 /\ Permutation (demanded o (ep_trace e)) (Z.of_N (rq_initial r) :: more sid (ep_trace e))).
Proof.
  intros W. destruct (W (reg_run c83_exports) (fun _ => true) false c83_early (c83_end c83_early)) with
    (t1 := [HRecv (req 6 1 [0; 0; 0; 0; 0; 0; 0; 0] [8] 2); HRecv (FRequestN {| rn_stream := 1; rn_n := 5 |})]) (sid := 1) (h := 11)
    (p := {| py_data := [8]; py_meta := [0; 0; 0; 0; 0; 0; 0; 0] |}) (t2 := [HDemand 0 2]) as (o & r & t3 & E & P).
  - split; [vm_compute; reflexivity|split; [vm_compute; reflexivity|repeat constructor]].
  - vm_compute. repeat constructor; cbn; auto.
  - reflexivity.
  - reflexivity.
  - injection E as <- En <-. rewrite <- En in P. apply Permutation_length in P.
    assert (L1 : length (demanded 0 (ep_trace (c83_end c83_early))) = 1%nat) by (vm_compute; reflexivity).
    assert (L2 : length (more 1 (ep_trace (c83_end c83_early))) = 1%nat) by (vm_compute; reflexivity). cbn [length] in P. rewrite L1, L2 in P. discriminate.
Qed.
(** A guest serves at once: nothing is lost and the order is kept. *)
Lemma more_received : forall sid a b, received a = received b -> more sid a = more sid b.
Proof.
  assert (M : forall sid t, more sid t = flat_map (fun f => match f with FRequestN r => if rn_stream r =? sid then [Z.of_N (rn_n r)] else [] | _ => [] end) (received t)).
  { intros sid t. unfold more, received. induction t as [|x t IH]; [reflexivity|]. cbn [flat_map]. rewrite IH, flat_map_app. f_equal. destruct x; try reflexivity. cbn. now rewrite app_nil_r. }
  intros sid a b H. now rewrite !M, H.
Qed.
Lemma guest_step_grows : forall reg sb x e e', good true e -> (is_call x = true -> ep_ids e < 1073741823) -> guest_step reg sb x e = Ok e' -> exists ev, ep_trace e' = ep_trace e ++ ev /\ (List.length (received ev) <= 1)%nat.
Proof.
  intros reg sb x e e' G Hc H. destruct (guest_step_cases _ _ _ _ _ H) as [(A1 & A2 & A3)|[(f & -> & A2 & ->)|[(k & r & -> & A2 & A3 & A4)|[(r & -> & A2 & ->)|[(r & o & -> & A2 & A3 & ->)|(i & -> & ->)]]]]].
  - destruct (view_grows _ _ _ _ _ _ (hstep_view reg sb true x e e' G Hc A3)) as (ev & T & R). exists ev. split; [exact T|]. rewrite R. destruct x; cbn; lia.
  - eexists. split; [reflexivity|]. cbn. lia.
  - rewrite (handle_request_eq _ _ _ _ _ _ A4). set (o := len _). exists (HRecv (FRequest r) :: dispatched reg k r o). split.
    + destruct (accepted reg k r && opens k); cbn [ep_emit ep_trace register ep_on ep_new]; now rewrite <- app_assoc.
    + unfold dispatched. destruct (len (rq_metadata r) <? 8); [cbn; lia|]. destruct (do_get k reg _); [destruct k|]; cbn; lia.
  - eexists. split; [reflexivity|]. cbn. lia.
  - eexists. split; [reflexivity|]. cbn. lia.
  - exists []. split; [symmetry; apply app_nil_r|]. cbn. lia.
Qed.
Lemma guest_waits : forall reg sb l e, guest_history reg sb l e -> ((forall o, waiting o e = []) /\ good true e) /\ ep_ids e = calls l.
Proof.
  intros reg sb l e1 (H & C & Q). apply (guest_inv reg sb (fun e => forall o, waiting o e = [])) with (l := l); auto; [|intros k r e0 e2 G G' W Hk Hf Ho E o|lia].
  - intros x e0 e2 G G' W Hp Hs _ _ V o.
    assert (Dr : forall i j, nth_error (ep_jobs e0) i = Some j -> waiting o (drop_job i e0) = []).
    { intros i j Hj. pose proof (waiting_drop o i e0 j Hj) as X. rewrite W in X. apply Permutation_nil, app_eq_nil in X. apply X. }
    destruct V as [x e Hx|p input e|k p input b y e Hk|o' y i e Ho Hl|o' n s s' l0 e Ho Hsf|o' n sid a e Ho|o' s e Ho|o' sid a e Ho|o' ev s e Ho|o' sid a b e Ho
      |s t ev e Hev|r k e Hk|r ev e Hk Hev|r js e Hjs Hm Hall|f e Hf Hg|f o' y e Hf Hg Ho Hsk|i k r e e' Hj He|i o' n e Hj|i o' s e Hj Ho|i o' e Hj Ho]; try exact (W o).
    + cbn [guest_plain] in Hp. rewrite Hk in Hp. discriminate.
    + discriminate Hp.
    + replace (waiting o _) with (waiting o (add_jobs (settles o' y (calls_of f)) e)) by (destruct (closes f); reflexivity).
      rewrite waiting_add, settles_wait, W. reflexivity.
    + unfold serves in Hs. rewrite Hj in Hs. discriminate.
    + exact (Dr i _ Hj).
    + exact (Dr i _ Hj).
    + exact (Dr i _ Hj).
  - rewrite (handle_request_eq _ _ _ _ _ _ E). destruct (accepted reg k r && opens k); exact (W o).
Qed.
Theorem C83_guest_in_order :
  forall reg sb l e, Forall (fun x => wire_input x = true) l -> guest_history reg sb l e -> NoDup (rids (ep_trace e)) ->
    forall t1 sid h p t2, ep_trace e = t1 ++ HInvoke RS sid h p :: t2 ->
      exists o r t3, t2 = HDemand o (Z.of_N (rq_initial r)) :: t3 /\ In (HRecv (FRequest r)) t1 /\ kind_code (rq_type r) = Some RS /\ rq_stream r = sid /\
        demanded o (ep_trace e) = Z.of_N (rq_initial r) :: more sid t3.
Proof.
  intros reg sb l e F H ND.
  assert (A : forall l e, Forall (fun x => wire_input x = true) l -> guest_history reg sb l e -> NoDup (rids (ep_trace e)) ->
    forall t1 sid h p t2, ep_trace e = t1 ++ HInvoke RS sid h p :: t2 ->
      exists o r t3, t2 = HDemand o (Z.of_N (rq_initial r)) :: t3 /\ In (HRecv (FRequest r)) t1 /\ kind_code (rq_type r) = Some RS /\ rq_stream r = sid /\
        demanded o t1 = [] /\ Permutation (demanded o t3) (more sid t3)).
  { clear l e F H ND. intros l e F H ND t1 sid h p t2 E. destruct (guest_waits reg sb l e H) as [[W _] _]. destruct (C79_guest_histories reg sb l e F H) as (l' & _ & H').
    destruct (st_next e (history_stream reg sb true l' e H' ND) t1 sid h p t2 E) as (o & r & t3 & -> & J1 & J2 & J3 & J4 & J5 & J6).
    exists o, r, t3. rewrite W, app_nil_r in J6. auto 10. }
  assert (One : forall a b : list Z, Permutation a b -> (List.length b <= 1)%nat -> a = b).
  { intros a b X L. destruct b as [|z [|z' b]]; [now apply Permutation_sym, Permutation_nil in X|now apply Permutation_sym, Permutation_length_1_inv in X|cbn in L; lia]. }
  assert (Few : forall sid t, (List.length (received t) <= 1)%nat -> (List.length (more sid t) <= 1)%nat).
  { intros sid t L. destruct (received t) as [|f [|g fs]] eqn:R; [..|cbn in L; lia].
    - rewrite (more_received sid t [] R). cbn. lia.
    - rewrite (more_received sid t [HRecv f] R). cbn. destruct f as [?|?|r|?|?|?]; cbn; try lia. destruct (rn_stream r =? sid); cbn; lia. }
  assert (B : forall l e, Forall (fun x => wire_input x = true) l -> guest_history reg sb l e -> NoDup (rids (ep_trace e)) ->
    forall t1 sid h p o n t3, ep_trace e = t1 ++ HInvoke RS sid h p :: HDemand o n :: t3 -> demanded o t3 = more sid t3).
  { clear l e F H ND. induction l as [|x l IH] using rev_ind; intros e F H ND t1 sid h p o n t3 E.
    - destruct H as (H & _). injection H as <-. destruct t1; discriminate E.
    - pose proof (A (l ++ [x]) e F H ND t1 sid h p _ E) as (o1 & r1 & t31 & X & _ & _ & _ & _ & Pm). injection X as <- _ <-.
      destruct H as (H & C & Q). apply Forall_app in F. destruct F as [F _]. rewrite guest_run_app in H. apply bind_ok in H. destruct H as (e1 & H1 & H). cbn [guest_run] in H.
      apply bind_ok in H. destruct H as (e2 & H2 & H). injection H as <-. rewrite calls_app in C. apply proper_app in Q. destruct Q as [Q1 Q2].
      assert (Hh : guest_history reg sb l e1) by (split; [exact H1|split; [lia|exact Q1]]).
      destruct (guest_waits reg sb l e1 Hh) as [[_ G1] I1].
      destruct (guest_step_grows reg sb x e1 e2 G1) as (ev & T & L); [|exact H2|].
      { intros Hx. rewrite I1. rewrite calls_cons, Hx in C. replace (calls []) with 0 in C by reflexivity. lia. }
      assert (ND1 : NoDup (rids (ep_trace e1))) by (rewrite T, rids_app in ND; now apply nodup_app in ND).
      pose proof E as E0. rewrite T in E. apply split_at2 in E. destruct E as [(t & E & Et)|(t & -> & E)].
      + destruct (A l e1 F Hh ND1 t1 sid h p t E) as (o2 & r2 & t4 & -> & _). cbn [app] in Et. injection Et as -> _ ->.
        rewrite demanded_app, more_app in *. rewrite (IH e1 F Hh ND1 t1 sid h p _ _ t4 E) in *. f_equal.
        apply One; [now apply Permutation_app_inv_l in Pm|now apply Few].
      + apply One; [exact Pm|]. apply Few. unfold received in *. rewrite E in L. rewrite flat_map_app, app_length in L. cbn [flat_map app] in L. lia. }
  intros t1 sid h p t2 E. destruct (A l e F H ND t1 sid h p t2 E) as (o & r & t3 & -> & J1 & J2 & J3 & J4 & _).
  exists o, r, t3. do 4 (split; [assumption||reflexivity|]). pose proof (B l e F H ND t1 sid h p o _ t3 E) as X. rewrite E, demanded_app, J4. cbn [app demanded flat_map]. rewrite N.eqb_refl. cbn [app]. fold (demanded o t3).
  now rewrite X.
Qed.
Definition c83_guest : list hop :=
  [XFrame (req 6 2 [0; 0; 0; 0; 0; 0; 0; 0] [8] 2); XFrame (FRequestN {| rn_stream := 2; rn_n := 5 |}); XFrame (FRequestN {| rn_stream := 2; rn_n := 3 |})].
Definition c83_guest_end : ep := match guest_run (reg_run c83_exports) (fun _ => true) c83_guest ep_init with Ok e => e | _ => ep_init end.
Example C83_example :
  history (reg_run c83_exports) (fun _ => true) false c83_late (c83_end c83_late) /\ NoDup (rids (ep_trace (c83_end c83_late))) /\
  (exists t1 p t3, ep_trace (c83_end c83_late) = t1 ++ HInvoke RS 1 11 p :: HDemand 0 2 :: t3 /\ more 1 t3 = [5%Z; 3%Z]) /\
  demanded 0 (ep_trace (c83_end c83_late)) = [2%Z; 3%Z; 5%Z] /\ waiting 0 (c83_end c83_late) = [] /\
  Forall (fun x => wire_input x = true) c83_guest /\ guest_history (reg_run c83_exports) (fun _ => true) c83_guest c83_guest_end /\ NoDup (rids (ep_trace c83_guest_end)) /\
  (exists t1 p t3, ep_trace c83_guest_end = t1 ++ HInvoke RS 2 11 p :: HDemand 0 2 :: t3 /\ more 2 t3 = [5%Z; 3%Z]) /\
  demanded 0 (ep_trace c83_guest_end) = [2%Z; 5%Z; 3%Z].
Proof.
  split; [split; [vm_compute; reflexivity|split; [vm_compute; reflexivity|repeat constructor]]|].
  split; [vm_compute; repeat constructor; cbn; auto|].
  split; [eexists [_], _, _; split; [vm_compute; reflexivity|reflexivity]|]. do 2 (split; [reflexivity|]). split; [repeat constructor|].
  split; [split; [vm_compute; reflexivity|split; [vm_compute; reflexivity|repeat constructor]]|].
  split; [vm_compute; repeat constructor; cbn; auto|].
  split; [eexists [_], _, _; split; [vm_compute; reflexivity|reflexivity]|]. reflexivity.
Qed.
Print Assumptions C83_demand_is_passed_on.
Print Assumptions C83_early_demand_lost_refuted.
Print Assumptions C83_guest_in_order.
