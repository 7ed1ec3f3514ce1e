(** Executions of the two WebAssembly ends, in terms of the steps of HandlerFacts.v. *)
From Verif Require Import Base BaseFacts FramesModel WasmModel InvokeModel LookupModel HandlerModel HandlerFacts WasmEndModel.
Local Ltac Zify.zify_post_hook ::= Z.div_mod_to_equations.

(** Frames the WebAssembly ends ignore: Setup frames and fragments of requests. *)
Definition ignored (f : frame) : bool :=
  match f with FSetup _ => true | FRequest r => match kind_of (rq_type r) with Some _ => rq_follows r | None => false end | _ => false end.
Definition ignored_op (x : hop) : bool := match x with XFrame f => ignored f | _ => false end.

Lemma good_drop : forall c i e, good c e -> good c (drop_job i e).
Proof.
  intros c i e G. apply (good_same c e); auto; [apply N.le_refl|]. cbn [drop_job ep_jobs]. intros y Hy. apply in_app_iff in Hy.
  rewrite <- (firstn_skipn i (ep_jobs e)), in_app_iff. destruct Hy as [Hy|Hy]; [now left|right].
  rewrite skipn_S_tl in Hy. destruct (skipn i (ep_jobs e)); [destruct Hy|now right].
Qed.
Lemma proper_one : forall c x, proper_peer c [x] -> forall r, x = XFrame (FRequest r) -> N.odd (rq_stream r) = negb c.
Proof. intros c x H r ->. unfold proper_peer, request_ids in H. cbn in H. now inversion H. Qed.

(** ** The host *)
Definition hops (l : list (hop * (kind -> N -> option N))) : list hop := map fst l.
Definition host_obj (k : kind) (r : request) : list sobj := match k with RS | RC => [OReq k (rq_stream r) true false] | _ => [] end.
Definition host_answer (imported : kind -> N -> option N) (k : kind) (r : request) (o : N) : list hevent :=
  if len (rq_metadata r) <? 8 then [HSent (error_frame_of (rq_stream r) invalid_metadata)]
  else match imported k (unbe (takeN 4 (rq_metadata r))) with
       | None => [HSent (error_frame_of (rq_stream r) not_found)]
       | Some h => HInvoke k (rq_stream r) h {| py_data := rq_data r; py_meta := rq_metadata r |} ::
                   match k with RS | RC => [HDemand o (Z.of_N (rq_initial r))] | _ => [] end
       end.
Definition host_accepts (imported : kind -> N -> option N) (k : kind) (r : request) : bool :=
  negb (len (rq_metadata r) <? 8) && match imported k (unbe (takeN 4 (rq_metadata r))) with Some _ => true | None => false end.
Definition host_opens (k : kind) (r : request) (e : ep) : ep :=
  match k with
  | RS => ep_new (OReq RS (rq_stream r) true false) e
  | RC => register (rq_stream r) (len (ep_objs e)) (ep_new (OReq RC (rq_stream r) true false) e)
  | _ => e
  end.
Lemma host_request_eq : forall sb imported k r e e', host_request sb imported k r e = Ok e' ->
  e' = ep_emit (host_answer imported k r (len (ep_objs e))) (if host_accepts imported k r then host_opens k r e else e).
Proof.
  intros sb imported k r e e' H. unfold host_request in H. unfold host_answer, host_accepts.
  destruct (len (rq_metadata r) <? 8); [now injection H as <-|].
  destruct (imported k (unbe (takeN 4 (rq_metadata r)))) as [h|]; [|now injection H as <-].
  destruct k; [| |destruct (sb h); [|discriminate]..]; now injection H as <-.
Qed.
Definition is_handle (j : job) : bool := match j with JHandle _ _ => true | _ => false end.
Definition serves (x : hop) (e : ep) : bool :=
  match x with XJob i => match nth_error (ep_jobs e) i with Some j => is_handle j | None => false end | _ => false end.
Lemma host_step_cases : forall sb x imported e e', host_step sb x imported e = Ok e' ->
  (ignored_op x = false /\ serves x e = false /\ hstep registry_init sb false x e = Ok e') \/
  (exists f, x = XFrame f /\ ignored f = true /\ e' = ep_emit [HRecv f] e) \/
  (exists i k r, x = XJob i /\ nth_error (ep_jobs e) i = Some (JHandle k r) /\ host_request sb imported k r (drop_job i e) = Ok e').
Proof.
  intros sb x imported e e' H. destruct x as [k p input|o|o n|o|o ev|o|f|i].
  1-6: left; cbn [host_step] in H; split; [reflexivity|split; [reflexivity|exact H]].
  - cbn [host_step] in H. destruct (ignored f) eqn:Ef.
    + right. left. exists f. split; [reflexivity|]. split; [exact Ef|]. destruct f as [s|r|r|y|p|y]; try discriminate Ef; cbn [host_frame ignored] in *.
      * now injection H as <-.
      * destruct (kind_of (rq_type r)); [|discriminate]. rewrite Ef in H. now injection H as <-.
    + left. split; [exact Ef|]. split; [reflexivity|]. cbn [hstep]. rewrite <- H. destruct f as [s|r|r|y|p|y]; try reflexivity; [discriminate|].
      cbn [ignored host_frame handle_frame] in *. destruct (kind_of (rq_type r)); [|reflexivity]. now rewrite Ef.
  - cbn [host_step] in H. destruct (nth_error (ep_jobs e) i) as [j|] eqn:E.
    + change {| ep_ids := ep_ids e; ep_guest := ep_guest e; ep_host := ep_host e; ep_table := ep_table e; ep_objs := ep_objs e;
              ep_jobs := firstn i (ep_jobs e) ++ skipn (S i) (ep_jobs e); ep_trace := ep_trace e |} with (drop_job i e) in H.
      destruct j as [k r|o n|o].
      * right. right. exists i, k, r. auto.
      * left. split; [reflexivity|]. unfold serves. rewrite E. split; [reflexivity|]. cbn [hstep]. rewrite E. exact H.
      * left. split; [reflexivity|]. unfold serves. rewrite E. split; [reflexivity|]. cbn [hstep]. rewrite E. exact H.
    + left. split; [reflexivity|]. unfold serves. rewrite E. split; [reflexivity|]. cbn [hstep]. now rewrite E.
Qed.
Lemma good_host_request : forall sb imported k r e e', good false e -> N.odd (rq_stream r) = true -> host_request sb imported k r e = Ok e' -> good false e'.
Proof.
  intros sb imported k r e e' G P H. rewrite (host_request_eq _ _ _ _ _ _ H). apply good_emit. destruct (host_accepts imported k r); [|exact G].
  assert (N1 : forall a b, good false (ep_new (OReq k (rq_stream r) a b) e)).
  { intros a b. apply good_new; [exact G|discriminate|]. intros k0 sid a0 b0 E. injection E as _ <- _ _. exact P. }
  destruct k; cbn [host_opens]; auto. apply (good_register false _ _ (OReq RC (rq_stream r) true false)); [apply N1|apply obj_new_new|reflexivity].
Qed.

Section HostRuns.
Variable subscribable : N -> bool.
Lemma host_run_app : forall a b e, host_run subscribable (a ++ b) e = (e1 <- host_run subscribable a e ;; host_run subscribable b e1).
Proof.
  induction a as [|[x im] a IH]; intros b e; [reflexivity|]. cbn [app host_run].
  destruct (host_step subscribable x im e) as [e1|m|]; [apply IH|reflexivity|reflexivity].
Qed.
(** Invariants of all executions of a host. *)
Lemma host_inv : forall (ok : (kind -> N -> option N) -> Prop) (P : ep -> Prop), P ep_init ->
  (forall x e e', good false e -> good false e' -> P e -> ignored_op x = false -> serves x e = false -> (is_call x = true -> ep_ids e < 1073741823) ->
     (forall r, x = XFrame (FRequest r) -> N.odd (rq_stream r) = true) -> view registry_init subscribable false x e e' -> P e') ->
  (forall f e, good false e -> P e -> ignored f = true -> P (ep_emit [HRecv f] e)) ->
  (forall i k r imported e e', ok imported -> good false e -> good false e' -> P e -> nth_error (ep_jobs e) i = Some (JHandle k r) -> N.odd (rq_stream r) = true ->
     host_request subscribable imported k r (drop_job i e) = Ok e' -> P e') ->
  forall l e, Forall (fun s => ok (snd s)) l -> calls (hops l) <= 1073741823 -> proper_peer false (hops l) -> host_run subscribable l ep_init = Ok e ->
    P e /\ good false e.
Proof.
  intros ok P P0 PS PI PR.
  assert (W : forall l e, Forall (fun s => ok (snd s)) l -> calls (hops l) <= 1073741823 -> proper_peer false (hops l) -> host_run subscribable l ep_init = Ok e ->
    (P e /\ good false e) /\ ep_ids e = calls (hops l)).
  { induction l as [|[x im] l IH] using rev_ind; intros e F C Q H.
    - injection H as <-. split; [split; [exact P0|apply good_init]|reflexivity].
    - rewrite host_run_app in H. apply bind_ok in H. destruct H as (e1 & H1 & H). cbn [host_run] in H.
      apply bind_ok in H. destruct H as (e2 & H2 & H). injection H as <-.
      apply Forall_app in F. destruct F as [F1 F2]. inversion F2 as [|? ? F3 _]. subst. cbn [snd] in F3.
      unfold hops in *. rewrite map_app in *. cbn [map fst] in *. rewrite calls_app, calls_cons in *. replace (calls []) with 0 in * by reflexivity.
      apply proper_app in Q. destruct Q as [Q1 Q2]. destruct (IH e1 F1 ltac:(lia) Q1 H1) as ([IP IG] & Ei).
      assert (Hc : is_call x = true -> ep_ids e1 < 1073741823) by (intros Ex; rewrite Ex in C; lia).
      pose proof (proper_one false x Q2) as Hq. cbn [negb] in Hq.
      destruct (host_step_cases _ _ _ _ _ H2) as [(A1 & A2 & A3)|[(f & -> & A2 & ->)|(i & k & r & -> & A2 & A3)]].
      + assert (G2 : good false e2) by (apply (good_step registry_init subscribable false x e1); auto).
        split; [|rewrite (step_ids registry_init subscribable false x e1 e2 A3 Hc), Ei; lia]. split; [|exact G2]. apply (PS x e1); auto.
        apply (hstep_view registry_init subscribable false); auto.
      + split; [|cbn [ep_emit ep_ids is_call]; rewrite Ei; lia]. split; [apply PI; auto|apply good_emit; exact IG].
      + assert (Ho : N.odd (rq_stream r) = true) by (apply (g_jobs false e1 IG k), (nth_error_In _ _ A2)).
        assert (G2 : good false e2) by (apply (good_host_request _ _ _ _ _ _ (good_drop false i e1 IG) Ho A3)).
        split; [split; [exact (PR i k r im e1 e2 F3 IG G2 IP A2 Ho A3)|exact G2]|]. transitivity (ep_ids e1); [|rewrite Ei; cbn [is_call]; lia].
        rewrite (host_request_eq _ _ _ _ _ _ A3). cbn [ep_emit ep_ids]. destruct (host_accepts im k r); [|reflexivity]. destruct k; reflexivity. }
  intros l e F C Q H. apply (W l e F C Q H).
Qed.
End HostRuns.

(** ** The guest *)
Lemma guest_request_eq : forall reg sb k r e, guest_request reg sb k r e = handle_request reg sb k r e.
Proof.
  intros. unfold guest_request, handle_request. destruct (len (rq_metadata r) <? 8); [reflexivity|].
  destruct (do_get k reg (unbe (takeN 4 (rq_metadata r)))); [|reflexivity]. now destruct k.
Qed.
Lemma drop_last_job : forall j e, drop_job (List.length (ep_jobs e)) (ep_job j e) = e.
Proof.
  intros j e. unfold drop_job, ep_job. cbn [ep_jobs ep_ids ep_guest ep_host ep_table ep_objs ep_trace].
  rewrite (skipn_all2 (ep_jobs e ++ [j])) by (rewrite app_length; cbn; lia).
  rewrite firstn_app, Nat.sub_diag, firstn_all, !app_nil_r. symmetry. apply ep_eta.
Qed.
Lemma nth_last_job : forall j e, nth_error (ep_jobs (ep_job j e)) (List.length (ep_jobs e)) = Some j.
Proof. intros. cbn [ep_job ep_jobs]. rewrite nth_error_app2, Nat.sub_diag by lia. reflexivity. Qed.

Definition guest_plain (x : hop) : bool :=
  match x with
  | XFrame (FSetup _) | XFrame (FRequestN _) => false
  | XFrame (FRequest r) => match kind_of (rq_type r) with Some _ => false | None => true end
  | _ => true
  end.
Lemma guest_step_cases : forall reg sb x e e', guest_step reg sb x e = Ok e' ->
  (guest_plain x = true /\ serves x e = false /\ hstep reg sb true x e = Ok e') \/
  (exists f, x = XFrame f /\ ignored f = true /\ e' = ep_emit [HRecv f] e) \/
  (exists k r, x = XFrame (FRequest r) /\ kind_of (rq_type r) = Some k /\ rq_follows r = false /\
     handle_request reg sb k r (ep_emit [HRecv (FRequest r)] e) = Ok e') \/
  (exists r, x = XFrame (FRequestN r) /\ get_stream (rn_stream r) e = None /\ e' = ep_emit [HRecv (FRequestN r)] e) \/
  (exists r o, x = XFrame (FRequestN r) /\ get_stream (rn_stream r) e = Some o /\ (forall q, ep_obj o e <> Some (OMono q)) /\
     e' = ep_emit [HRecv (FRequestN r); HDemand o (Z.of_N (rn_n r))] e) \/
  (exists i, x = XJob i /\ e' = e).
Proof.
  intros reg sb x e e' H. destruct x as [k p input|o|o n|o|o ev|o|f|i].
  1-6: left; cbn [guest_step] in H; split; [reflexivity|split; [reflexivity|exact H]].
  - cbn [guest_step] in H. destruct f as [s|r|r|y|p|y]; cbn [guest_frame] in H; try (left; split; [reflexivity|split; [reflexivity|exact H]]).
    + right. left. exists (FSetup s). injection H as <-. auto.
    + destruct (kind_of (rq_type r)) as [k|] eqn:Ek.
      * destruct (rq_follows r) eqn:Ef.
        -- right. left. exists (FRequest r). injection H as <-. cbn [ignored]. rewrite Ek. auto.
        -- right. right. left. exists k, r. rewrite guest_request_eq in H. auto.
      * left. cbn [guest_plain]. rewrite Ek. split; [reflexivity|]. split; [reflexivity|]. exact H.
    + change (get_stream (rn_stream r) (ep_emit [HRecv (FRequestN r)] e)) with (get_stream (rn_stream r) e) in H.
      destruct (get_stream (rn_stream r) e) as [o|] eqn:Eg.
      * right. right. right. right. left. exists r, o. split; [reflexivity|]. split; [exact Eg|]. unfold do_demand in H.
        change (ep_obj o (ep_emit [HRecv (FRequestN r)] e)) with (ep_obj o e) in H.
        assert (Z : (forall q, ep_obj o e <> Some (OMono q)) /\ Ok e' = Ok (ep_emit [HDemand o (Z.of_N (rn_n r))] (ep_emit [HRecv (FRequestN r)] e))).
        { destruct (ep_obj o e) as [[q|s|k sid a b]|]; try discriminate; rewrite <- H; (split; [discriminate|]).
          - destruct (sf_in s && negb (sf_first s)); [reflexivity|discriminate].
          - destruct a; [reflexivity|discriminate]. }
        destruct Z as [Z1 Z2]. injection Z2 as ->. split; [exact Z1|]. now rewrite emit_emit.
      * right. right. right. left. exists r. injection H as <-. auto.
  - cbn [guest_step] in H. destruct (nth_error (ep_jobs e) i) as [[k r|o n|o]|] eqn:E;
      try (right; right; right; right; right; exists i; injection H as <-; auto; fail).
    left. split; [reflexivity|]. unfold serves. rewrite E. split; [reflexivity|]. cbn [hstep]. rewrite E. exact H.
Qed.

Section GuestRuns.
Variable reg : registry.
Variable subscribable : N -> bool.
Lemma guest_run_app : forall a b e, guest_run reg subscribable (a ++ b) e = (e1 <- guest_run reg subscribable a e ;; guest_run reg subscribable b e1).
Proof.
  induction a as [|x a IH]; intros b e; [reflexivity|]. cbn [app guest_run].
  destruct (guest_step reg subscribable x e) as [e1|m|]; [apply IH|reflexivity|reflexivity].
Qed.
(** Invariants of all executions of a guest. *)
Lemma guest_inv : forall (P : ep -> Prop), P ep_init ->
  (forall x e e', good true e -> good true e' -> P e -> guest_plain x = true -> serves x e = false -> (is_call x = true -> ep_ids e < 1073741823) ->
     (forall r, x = XFrame (FRequest r) -> N.odd (rq_stream r) = false) -> view reg subscribable true x e e' -> P e') ->
  (forall f e, good true e -> P e -> ignored f = true -> P (ep_emit [HRecv f] e)) ->
  (forall k r e e', good true e -> good true e' -> P e -> kind_of (rq_type r) = Some k -> rq_follows r = false -> N.odd (rq_stream r) = false ->
     handle_request reg subscribable k r (ep_emit [HRecv (FRequest r)] e) = Ok e' -> P e') ->
  (forall r e, good true e -> P e -> get_stream (rn_stream r) e = None -> P (ep_emit [HRecv (FRequestN r)] e)) ->
  (forall r o e, good true e -> P e -> get_stream (rn_stream r) e = Some o -> (forall q, ep_obj o e <> Some (OMono q)) ->
     P (ep_emit [HRecv (FRequestN r); HDemand o (Z.of_N (rn_n r))] e)) ->
  forall l e, calls l <= 1073741823 -> proper_peer true l -> guest_run reg subscribable l ep_init = Ok e -> (P e /\ good true e) /\ ep_ids e = calls l.
Proof.
  intros P P0 PS PI PR PN PD. induction l as [|x l IH] using rev_ind; intros e C Q H.
    - injection H as <-. split; [split; [exact P0|apply good_init]|reflexivity].
    - rewrite guest_run_app in H. apply bind_ok in H. destruct H as (e1 & H1 & H). cbn [guest_run] in H.
      apply bind_ok in H. destruct H as (e2 & H2 & H). injection H as <-.
      rewrite calls_app, calls_cons in *. replace (calls []) with 0 in * by reflexivity.
      apply proper_app in Q. destruct Q as [Q1 Q2]. destruct (IH e1 ltac:(lia) Q1 H1) as ([IP IG] & Ei).
      assert (Hc : is_call x = true -> ep_ids e1 < 1073741823) by (intros Ex; rewrite Ex in C; lia).
      pose proof (proper_one true x Q2) as Hq. cbn [negb] in Hq.
      destruct (guest_step_cases _ _ _ _ _ H2) as [(A1 & A2 & A3)|[(f & -> & A2 & ->)|[(k & r & -> & A2 & A3 & A4)|[(r & -> & A2 & ->)|[(r & o & -> & A2 & A3 & ->)|(i & -> & ->)]]]]].
      + assert (G2 : good true e2) by (apply (good_step reg subscribable true x e1); auto).
        split; [|rewrite (step_ids reg subscribable true x e1 e2 A3 Hc), Ei; lia]. split; [|exact G2]. apply (PS x e1); auto.
        apply (hstep_view reg subscribable true); auto.
      + split; [|cbn [ep_emit ep_ids is_call]; rewrite Ei; lia]. split; [apply PI; auto|apply good_emit; exact IG].
      + specialize (Hq r eq_refl). assert (G2 : good true e2) by (eapply good_handle_request; [apply good_emit; exact IG| |exact A4]; exact Hq).
        split; [split; [exact (PR k r e1 e2 IG G2 IP A2 A3 Hq A4)|exact G2]|]. transitivity (ep_ids e1); [|rewrite Ei; cbn [is_call]; lia].
        rewrite (handle_request_eq _ _ _ _ _ _ A4). cbn [ep_emit ep_ids]. destruct (accepted reg k r && opens k); reflexivity.
      + split; [|cbn [ep_emit ep_ids is_call]; rewrite Ei; lia]. split; [apply PN; auto|apply good_emit; exact IG].
      + split; [|cbn [ep_emit ep_ids is_call]; rewrite Ei; lia]. split; [apply PD; auto|apply good_emit; exact IG].
      + split; [split; assumption|]. cbn [is_call]. rewrite Ei. lia.
Qed.
End GuestRuns.
