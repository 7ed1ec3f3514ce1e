(** Facts about a host and a guest joined by the shared memory. *)
From Verif Require Import Base BaseFacts FramesModel FramesProofs FramesProps WasmModel WasmProofs WasmProps InvokeModel InvokeProofs LookupModel TcpModel TcpProofs TcpProps
  HandlerModel HandlerFacts HandlerProps HandlerCallProps HandlerServeProps HandlerCrashProps JointModel JointFacts JointProps StreamFacts StreamProps
  WasmEndModel WasmEndFacts WasmEndProps WasmCallFacts WasmCallProps WasmJointModel.
From Coq Require Import Permutation.
Local Ltac Zify.zify_post_hook ::= Z.div_mod_to_equations.

Lemma crosses_received : forall room guest f g, sendable f -> 3 + size_frame f <= room -> crosses room guest f g -> frame_received f g.
Proof.
  intros room guest f g Hs Hf (pre & buf & post & buf' & n & body & L & W & R & B). rewrite <- L in Hf. destruct guest.
  - destruct (C22_fitting_frame_reaches_guest f buf Hs Hf) as (body' & g' & A1 & A2 & A3). unfold host_sends in A1. rewrite W in A1. injection A1 as A1. rewrite R in A1. injection A1 as ->.
    rewrite B in A2. injection A2 as ->. exact A3.
  - destruct (C20_guest_frames_reach_host f pre buf post Hs Hf) as (body' & g' & A1 & A2 & A3). unfold guest_sends in A1. rewrite W in A1. injection A1 as A1. rewrite R in A1. injection A1 as ->.
    rewrite B in A2. injection A2 as ->. exact A3.
Qed.
(** A frame that fits can cross. *)
Lemma crosses_ok : forall room guest f, sendable f -> 3 + size_frame f <= room -> exists g, crosses room guest f g.
Proof.
  intros room guest f Hs Hf. assert (L : len (zeros room) = room) by apply len_zeros. rewrite <- L in Hf. destruct guest.
  - destruct (C22_fitting_frame_reaches_guest f (zeros room) Hs Hf) as (body & g & A1 & A2 & _). unfold host_sends in A1.
    destruct (write_frame (zeros room) f) as [[buf' n]| |] eqn:W; try discriminate. injection A1 as A1. exists g, [], (zeros room), [], buf', n, body. auto.
  - destruct (C20_guest_frames_reach_host f [] (zeros room) [] Hs Hf) as (body & g & A1 & A2 & _). unfold guest_sends in A1.
    destruct (write_frame (zeros room) f) as [[buf' n]| |] eqn:W; try discriminate. injection A1 as A1. exists g, [], (zeros room), [], buf', n, body. auto.
Qed.

(** ** One side *)
Lemma hops_with : forall (im : kind -> N -> option N) l, hops (map (fun x => (x, im)) l) = l.
Proof. intros. unfold hops. rewrite map_map. apply map_id. Qed.
Lemma host_ids : forall sb l e, calls (hops l) <= 1073741823 -> host_run sb l ep_init = Ok e -> ep_ids e = calls (hops l).
Proof.
  intros sb l. induction l as [|[x im] l IH] using rev_ind; intros e C H; [injection H as <-; reflexivity|].
  rewrite host_run_app in H. apply bind_ok in H. destruct H as (e1 & H1 & H). cbn [host_run] in H. apply bind_ok in H. destruct H as (e2 & H2 & H). injection H as <-.
  unfold hops in *. rewrite map_app in *. cbn [map fst] in *. rewrite calls_app, calls_cons in *. replace (calls []) with 0 in * by reflexivity.
  specialize (IH e1 ltac:(lia) H1). assert (Hc : is_call x = true -> ep_ids e1 < 1073741823) by (intros Ex; rewrite Ex in C; lia).
  destruct (host_step_cases _ _ _ _ _ H2) as [(A1 & A2 & A3)|[(f & -> & A2 & ->)|(i & k & r & -> & A2 & A3)]].
  - rewrite (step_ids registry_init sb false x e1 e2 A3 Hc), IH. lia.
  - cbn [ep_emit ep_ids is_call]. lia.
  - transitivity (ep_ids e1); [|rewrite IH; cbn [is_call]; lia].
    rewrite (host_request_eq _ _ _ _ _ _ A3). cbn [ep_emit ep_ids]. destruct (host_accepts im k r); [|reflexivity]. destruct k; reflexivity.
Qed.
(** What a step adds to the trace. *)
Definition grows (x : hop) (e e' : ep) (ev : list hevent) : Prop :=
  ep_trace e' = ep_trace e ++ ev /\ received ev = match x with XFrame f => [f] | _ => [] end /\
  (forall o, subscribed o ev = true -> received ev = []) /\
  (forall o k sid p b, In (HCalled o k sid p b) ev -> o = len (ep_objs e) /\ subscribed o ev = false).
Lemma view_grown : forall reg sb c x e e', view reg sb c x e e' -> exists ev, grows x e e' ev.
Proof.
  intros reg sb c x e e' V. destruct (view_grows _ _ _ _ _ _ V) as (ev & T & R). destruct (view_events _ _ _ _ _ _ ev V T) as [E1 E2]. exists ev. repeat split; auto; eapply E2; eauto.
Qed.
Lemma calm_grown : forall c x e e' ev, calm c e e' ev -> received ev = match x with XFrame f => [f] | _ => [] end -> grows x e e' ev.
Proof.
  intros c x e e' ev K R. pose proof (ca_ev _ _ _ _ K) as F. assert (S : forall o, subscribed o ev = false).
  { intros o. unfold subscribed. clear -F. induction F as [|y l Y _ IH]; [reflexivity|]. cbn [existsb]. rewrite IH. destruct y; cbn in *; try contradiction; reflexivity. }
  split; [exact (ca_trace _ _ _ _ K)|]. split; [exact R|]. split; [intros o H; rewrite S in H; discriminate|].
  intros o k sid p b H. rewrite Forall_forall in F. destruct (F _ H).
Qed.

Section Sides.
Variable exported : list reg_call.
Variable imported : kind -> N -> option N.
Variable subscribable : bool -> N -> bool.
Hypothesis few : len exported < 2 ^ 32.
Let step := side_step exported imported subscribable.
Definition whist (c : bool) (l : list hop) (e : ep) : Prop :=
  if c then guest_history (reg_run exported) (subscribable true) l e else host_history (subscribable false) (map (fun x => (x, imported)) l) e.
Lemma whist_wasm : forall c l e, whist c l e -> wasm_history c e.
Proof. intros [] l e H; cbn in *; eauto. Qed.
Lemma whist_step : forall c l e x e', whist c l e -> step c x e = Ok e' -> calls (l ++ [x]) < 2 ^ 30 -> (forall r, x = XFrame (FRequest r) -> N.odd (rq_stream r) = negb c) ->
  whist c (l ++ [x]) e' /\ exists ev, grows x e e' ev.
Proof.
  intros c l e x e' H St C Q. destruct (wasm_calls_ok c e (whist_wasm c l e H)) as [K G]. change (2 ^ 30) with 1073741824 in *.
  assert (Pr : proper_peer c l -> proper_peer c (l ++ [x])).
  { intros P. apply proper_app. split; [exact P|]. unfold proper_peer, request_ids. destruct x as [| | | | | |f|]; try constructor. destruct f; repeat constructor. now apply Q. }
  destruct c; cbn [whist] in *; unfold step, side_step in St.
  - destruct H as (R1 & R2 & R3). change (2 ^ 30) with 1073741824 in *. split.
    + split; [|split; [exact C|now apply Pr]]. rewrite guest_run_app, R1. cbn [bind guest_run]. rewrite St. reflexivity.
    + assert (Ids : ep_ids e = calls l).
      { apply (guest_inv (reg_run exported) (subscribable true) (fun _ => True)) with (l := l); auto. lia. }
      rewrite calls_app, calls_cons in C. replace (calls []) with 0 in C by reflexivity. assert (Hc : is_call x = true -> ep_ids e < 1073741823) by (intros Ex; rewrite Ex in C; lia).
      destruct (guest_step_cases _ _ _ _ _ St) as [(A1 & A2 & A3)|[(f & -> & A2 & ->)|[(k & r & -> & A2 & A3 & A4)|[(r & -> & A2 & ->)|[(r & o & -> & A2 & A3 & ->)|(i & -> & ->)]]]]].
      * apply (view_grown (reg_run exported) (subscribable true) true). apply hstep_view; auto.
      * eexists. apply (calm_grown true); [apply calm_ignored; exact A2|reflexivity].
      * eexists. apply (calm_grown true); [apply (calm_guest_request _ _ _ _ _ _ G (Q r eq_refl) A4)|]. cbn [received flat_map app]. f_equal.
        unfold dispatched. destruct (len (rq_metadata r) <? 8); [reflexivity|]. destruct (do_get k _ _); [destruct k|]; reflexivity.
      * eexists. apply (calm_grown true); [apply calm_request_n|reflexivity].
      * eexists. apply (calm_grown true); [apply calm_demand|reflexivity].
      * exists []. split; [symmetry; apply app_nil_r|]. split; [reflexivity|]. split; [discriminate|intros ? ? ? ? ? []].
  - destruct H as (R1 & R2 & R3). rewrite hops_with in *. change (2 ^ 30) with 1073741824 in *. split.
    + split; [|rewrite hops_with; split; [exact C|now apply Pr]]. rewrite map_app, host_run_app, R1. cbn [bind host_run map]. rewrite St. reflexivity.
    + assert (Ids : ep_ids e = calls l).
      { pose proof (host_ids (subscribable false) (map (fun x => (x, imported)) l) e) as Hi. rewrite hops_with in Hi. eapply Hi; [lia|exact R1]. }
      rewrite calls_app, calls_cons in C. replace (calls []) with 0 in C by reflexivity. assert (Hc : is_call x = true -> ep_ids e < 1073741823) by (intros Ex; rewrite Ex in C; lia).
      destruct (host_step_cases _ _ _ _ _ St) as [(A1 & A2 & A3)|[(f & -> & A2 & ->)|(i & k & r & -> & A2 & A3)]].
      * apply (view_grown registry_init (subscribable false) false). apply hstep_view; auto.
      * eexists. apply (calm_grown false); [apply calm_ignored; exact A2|reflexivity].
      * assert (Ho : N.odd (rq_stream r) = true) by (apply (g_jobs false e G k), (nth_error_In _ _ A2)).
        eexists. apply (calm_grown false); [apply (calm_host_request _ _ _ _ _ _ _ G Ho A3)|].
        unfold host_answer. destruct (len (rq_metadata r) <? 8); [reflexivity|]. destruct (imported k _); [destruct k|]; reflexivity.
Qed.
Lemma whist_unseen : forall c l e, whist c l e -> unseen (len (ep_objs e)) (ep_trace e).
Proof. intros c l e H. destruct (wasm_calls_ok c e (whist_wasm c l e H)) as [[[[M _] _] _] _]. exact (mo_new c _ M _ (N.le_refl _)). Qed.
(** What a request gets. *)
Definition reacts (c : bool) : kind * request -> reply := if c then reaction exported else host_reaction imported.
Lemma served_in : forall c l e x, whist c l e -> In x (replies c (ep_trace e)) -> exists k r, In (k, r) (requests (ep_trace e)) /\ reacts c (k, r) = x.
Proof.
  intros c l e x H Hx. assert (X : In x (map (reacts c) (whole (requests (ep_trace e))))).
  { destruct c; cbn [whist reacts] in *.
    - rewrite <- (C79_served_in_order _ _ _ _ few H). exact Hx.
    - eapply Permutation_in; [apply (C78_every_whole_request_served_once _ imported _ _ H); apply Forall_forall; intros y Hy; apply in_map_iff in Hy; destruct Hy as (z & <- & _); reflexivity|].
      apply in_app_iff. now left. }
  apply in_map_iff in X. destruct X as ([k r] & X1 & X2). apply filter_In in X2. destruct X2 as [X2 _]. eauto.
Qed.
Lemma served_idle : forall c l e k r, whist c l e -> ep_jobs e = [] -> In (k, r) (requests (ep_trace e)) -> rq_follows r = false -> In (reacts c (k, r)) (replies c (ep_trace e)).
Proof.
  intros c l e k r H J Hr Hf. assert (W : In (k, r) (whole (requests (ep_trace e)))) by (apply filter_In; split; [exact Hr|cbn [snd]; now rewrite Hf]).
  destruct c; cbn [whist reacts] in *.
  - rewrite (C79_served_in_order _ _ _ _ few H). now apply in_map.
  - eapply Permutation_in; [symmetry; apply (C78_idle_all_answered _ imported _ _ H); [|exact J]|now apply in_map].
    apply Forall_forall. intros y Hy. apply in_map_iff in Hy. destruct Hy as (z & <- & _). reflexivity.
Qed.
Lemma reacts_on : forall c sid l, List.length (filter (reply_on sid) (map (reacts c) l)) = List.length (filter (on_call sid) l).
Proof.
  intros c sid l. destruct c; [apply reaction_on|]. induction l as [|[k r] l IH]; [reflexivity|]. cbn [map filter]. unfold on_call at 1. cbn [snd].
  assert (E : reply_on sid (reacts false (k, r)) = (rq_stream r =? sid)).
  { cbn [reacts]. unfold host_reaction. destruct (len (rq_metadata r) <? 8); [reflexivity|]. destruct (imported k _); reflexivity. }
  rewrite E. destruct (rq_stream r =? sid); cbn [List.length]; now rewrite IH.
Qed.
Lemma filter_whole : forall sid l, (List.length (filter (on_call sid) (whole l)) <= List.length (filter (on_call sid) l))%nat.
Proof. intros sid l. induction l as [|x l IH]; [apply Nat.le_refl|]. unfold whole in *. cbn [filter]. destruct (negb (rq_follows (snd x))); cbn [filter]; destruct (on_call sid x); cbn [List.length]; lia. Qed.
Lemma served_count : forall c l e sid, whist c l e -> (List.length (filter (reply_on sid) (replies c (ep_trace e))) <= List.length (filter (on_call sid) (requests (ep_trace e))))%nat.
Proof.
  intros c l e sid H. eapply Nat.le_trans; [|apply filter_whole]. rewrite <- (reacts_on c). destruct c; cbn [whist reacts] in *.
  - rewrite (C79_served_in_order _ _ _ _ few H). apply Nat.le_refl.
  - rewrite <- (Permutation_filter_len _ (reply_on sid) _ _ (C78_every_whole_request_served_once _ imported _ _ H ltac:(apply Forall_forall; intros y Hy; apply in_map_iff in Hy; destruct Hy as (z & <- & _); reflexivity))).
    rewrite filter_app, app_length. lia.
Qed.
Lemma reacts_invoked : forall c k r k' sid h p, reacts c (k, r) = Invoked k' sid h p -> k' = k /\ rq_stream r = sid.
Proof.
  intros [] k r k' sid h p H; [exact (reaction_invoked _ _ _ _ _ _ _ H)|]. cbn [reacts] in H. unfold host_reaction in H. destruct (len (rq_metadata r) <? 8); [discriminate|].
  destruct (imported k _); [|discriminate]. injection H as <- <- _ _. auto.
Qed.
Lemma reacts_refused : forall c k r sid text, reacts c (k, r) = Refused sid text -> rq_stream r = sid.
Proof.
  intros [] k r sid text H; [exact (reaction_refused _ _ _ _ _ H)|]. cbn [reacts] in H. unfold host_reaction in H. destruct (len (rq_metadata r) <? 8); [now injection H as <- _|].
  destruct (imported k _); [discriminate|]. now injection H as <- _.
Qed.
End Sides.

(** ** Both sides *)
Section WasmInv.
Variable exported : list reg_call.
Variable imported : kind -> N -> option N.
Variable subscribable : bool -> N -> bool.
Variable behaves : bool -> N -> pay -> pay + bytes -> Prop.
Variable room : bool -> N.
Hypothesis few : len exported < 2 ^ 32.
Let wst := wstep exported imported subscribable behaves room.
Let hist := whist exported imported subscribable.
(** Every frame fits into the buffer it is written to; fewer than 2^30 calls. *)
Definition fits (j : joint) : Prop := forall c, Forall (fun f => sendable f /\ 3 + size_frame f <= room (negb c)) (sd_out (at_side c j)) /\ calls (sd_ops (at_side c j)) < 2 ^ 30.
Record wasm_ok (j : joint) : Prop := {
  wo_run : forall c, hist c (sd_ops (at_side c j)) (sd_ep (at_side c j));
  wo_out : forall c f, In f (sd_out (at_side c j)) -> reason behaves c (at_side c j) f;
  wo_sent : forall c f, In (HSent f) (trace_of c j) -> In f (sd_out (at_side c j));
  wo_recv : forall c, exists n, Forall2 frame_received (firstn n (sd_out (at_side (negb c) j))) (received (trace_of c j)) }.
Lemma fits_before : forall j j', wst j j' -> fits j' -> fits j.
Proof.
  intros j j' S U d. specialize (U d). destruct S as [c x j e' Hx H|c f g j e' Hn Hr H|c sid h p r j Hi Hb|c k sid h p f j Hi Hk Hs Hf];
    (destruct (side_cases c d) as [->| ->]; [rewrite at_put_same in U|rewrite at_put_other in U; exact U]); destruct U as [U1 U2]; cbn [advance write sd_out sd_ops] in U1, U2;
    apply Forall_app in U1; destruct U1 as [U1 _]; (split; [exact U1|]); rewrite ?calls_app in U2; lia.
Qed.
Lemma sent_of : forall j c, wasm_ok j -> sent_ok c (sd_ep (at_side c j)).
Proof. intros j c J. exact (proj2 (proj1 (wasm_calls_ok c _ (whist_wasm _ _ _ c _ _ (wo_run j J c))))). Qed.
Lemma wasm_step : forall j j', wasm_ok j -> wst j j' -> fits j' -> wasm_ok j' /\ forall d, exists ev, trace_of d j' = trace_of d j ++ ev /\
  (forall o, subscribed o ev = true -> received ev = []) /\
  (forall o k sid p b, In (HCalled o k sid p b) ev -> subscribed o (trace_of d j) = false /\ subscribed o ev = false) /\
  (sd_out (at_side d j') = sd_out (at_side d j) ++ sent_by ev \/
   ev = [] /\ exists f k h p, sd_out (at_side d j') = sd_out (at_side d j) ++ [f] /\ In (HInvoke k (frame_stream f) h p) (trace_of d j)).
Proof.
  intros j j' J St U. pose proof J as [R O S V].
  pose proof (fits_before j j' St U) as U0.
  assert (Nop : forall d, exists ev, trace_of d j = trace_of d j ++ ev /\ (forall o, subscribed o ev = true -> received ev = []) /\
    (forall o k sid p b, In (HCalled o k sid p b) ev -> subscribed o (trace_of d j) = false /\ subscribed o ev = false) /\
    (sd_out (at_side d j) = sd_out (at_side d j) ++ sent_by ev \/
     ev = [] /\ exists f k h p, sd_out (at_side d j) = sd_out (at_side d j) ++ [f] /\ In (HInvoke k (frame_stream f) h p) (trace_of d j))).
  { intros d. exists []. split; [symmetry; apply app_nil_r|]. split; [discriminate|]. split; [intros ? ? ? ? ? []|]. left. symmetry. apply app_nil_r. }
  (* an operation at one side *)
  assert (Op : forall c x e', side_step exported imported subscribable c x (sd_ep (at_side c j)) = Ok e' ->
    (exists n, Forall2 frame_received (firstn n (sd_out (at_side (negb c) j))) (received (trace_of c j) ++ match x with XFrame f => [f] | _ => [] end)) ->
    fits (put_side c (advance x e' (at_side c j)) j) ->
    let j' := put_side c (advance x e' (at_side c j)) j in
    wasm_ok j' /\ forall d, exists ev, trace_of d j' = trace_of d j ++ ev /\
      (forall o, subscribed o ev = true -> received ev = []) /\
      (forall o k sid p b, In (HCalled o k sid p b) ev -> subscribed o (trace_of d j) = false /\ subscribed o ev = false) /\
      (sd_out (at_side d j') = sd_out (at_side d j) ++ sent_by ev \/
       ev = [] /\ exists f k h p, sd_out (at_side d j') = sd_out (at_side d j) ++ [f] /\ In (HInvoke k (frame_stream f) h p) (trace_of d j))).
  { intros c x e' H Hr Us j1. subst j1. set (s := at_side c j) in *. destruct (Us c) as [_ U2]. rewrite at_put_same in U2. cbn [advance sd_ops] in U2.
    pose proof (R c) as Rc. fold s in Rc.
    assert (Q : forall r, x = XFrame (FRequest r) -> N.odd (rq_stream r) = negb c).
    { intros r ->. destruct Hr as (n & Hn). destruct (Forall2_in _ _ _ _ _ (FRequest r) Hn) as (f & F1 & F2); [apply in_app_iff; right; now left|].
      apply firstn_in in F1. assert (F3 : exists q, f = FRequest q /\ request_received q r) by (destruct f; cbn in F2; try contradiction; eauto; subst; eauto).
      destruct F3 as (q & -> & Hq). destruct Hq as (_ & Hq & _). rewrite Hq.
      destruct (O _ _ F1) as [X|[(sid & h & p & o & _ & _ & X)|(k & sid & h & p & _ & _ & _ & [])]]; [|destruct o; discriminate].
      exact (st_sent _ _ (sent_of j (negb c) J) _ X). }
    destruct (whist_step exported imported subscribable few c (sd_ops s) (sd_ep s) x e' Rc H U2 Q) as [Hist (ev & T & Rv & E1 & E2)].
    assert (Sk : skipn (List.length (ep_trace (sd_ep s))) (ep_trace e') = ev).
    { rewrite T. rewrite skipn_app, skipn_all, Nat.sub_diag. reflexivity. }
    assert (Gr : forall f, reason behaves c s f -> reason behaves c (advance x e' s) f).
    { unfold reason. cbn [advance sd_ep]. rewrite T. intros f [X|[(sid & h & p & o & X & Y)|(k & sid & h & p & X & Y)]].
      - left. apply in_app_iff. now left.
      - right. left. exists sid, h, p, o. split; [|exact Y]. apply in_app_iff. now left.
      - right. right. exists k, sid, h, p. split; [|exact Y]. apply in_app_iff. now left. }
    assert (Out : sd_out (advance x e' s) = sd_out s ++ sent_by ev) by (unfold advance; cbn [sd_out]; now rewrite Sk).
    split; [constructor|].
    - intros d. destruct (side_cases c d) as [->| ->]; [rewrite at_put_same; exact Hist|rewrite at_put_other; apply R].
    - intros d f. destruct (side_cases c d) as [->| ->]; [rewrite at_put_same|rewrite at_put_other; apply O]. rewrite Out. intros Hf. apply in_app_iff in Hf.
      destruct Hf as [Hf|Hf]; [apply Gr, O, Hf|]. left. cbn [advance sd_ep]. rewrite T. apply in_app_iff. right. now apply in_sent_by.
    - intros d f. unfold trace_of. destruct (side_cases c d) as [->| ->]; [rewrite at_put_same|rewrite at_put_other; apply S]. rewrite Out. cbn [advance sd_ep]. rewrite T.
      intros Hf. apply in_app_iff in Hf. apply in_app_iff. destruct Hf as [Hf|Hf]; [left; now apply S|right; now apply in_sent_by].
    - intros d. unfold trace_of. destruct (side_cases c d) as [->| ->].
      + rewrite at_put_other, at_put_same. cbn [advance sd_ep]. rewrite T, received_app, Rv. exact Hr.
      + rewrite at_put_other, negb_involutive, at_put_same, Out. destruct (V (negb c)) as (n & Hn). rewrite negb_involutive in Hn. fold s in Hn.
        destruct (firstn_app_more _ n (sd_out s) (sent_by ev)) as (m & Hm). exists m. now rewrite Hm.
    - intros d. unfold trace_of. destruct (side_cases c d) as [->| ->]; [rewrite at_put_same|rewrite at_put_other; apply (Nop (negb c))].
      exists ev. split; [exact T|]. split; [exact E1|]. split; [|left; exact Out]. intros o k sid p b Hi. destruct (E2 o k sid p b Hi) as [-> E3]. split; [|exact E3].
      fold s. exact (proj1 (unseen_facts _ _ (whist_unseen _ _ _ c _ _ Rc))). }
  assert (Wr : forall c f, reason behaves c (at_side c j) f -> (exists k h p, In (HInvoke k (frame_stream f) h p) (trace_of c j)) ->
    let j' := put_side c (write f (at_side c j)) j in
    wasm_ok j' /\ forall d, exists ev, trace_of d j' = trace_of d j ++ ev /\
      (forall o, subscribed o ev = true -> received ev = []) /\
      (forall o k sid p b, In (HCalled o k sid p b) ev -> subscribed o (trace_of d j) = false /\ subscribed o ev = false) /\
      (sd_out (at_side d j') = sd_out (at_side d j) ++ sent_by ev \/
       ev = [] /\ exists f k h p, sd_out (at_side d j') = sd_out (at_side d j) ++ [f] /\ In (HInvoke k (frame_stream f) h p) (trace_of d j))).
  { intros c f Hf (k & h & p & Iv) j1. subst j1. set (s := at_side c j) in *. split; [constructor|].
    - intros d. destruct (side_cases c d) as [->| ->]; [rewrite at_put_same; exact (R c)|rewrite at_put_other; apply R].
    - intros d g. destruct (side_cases c d) as [->| ->]; [rewrite at_put_same|rewrite at_put_other; apply O]. cbn [write sd_out]. intros Hg. apply in_app_iff in Hg.
      destruct Hg as [Hg|[<-|[]]]; [exact (O c g Hg)|exact Hf].
    - intros d g. unfold trace_of. destruct (side_cases c d) as [->| ->]; [rewrite at_put_same|rewrite at_put_other; apply S]. cbn [write sd_out sd_ep]. intros Hg.
      apply in_app_iff. left. now apply S.
    - intros d. unfold trace_of. destruct (side_cases c d) as [->| ->].
      + rewrite at_put_other, at_put_same. exact (V c).
      + rewrite at_put_other, negb_involutive, at_put_same. cbn [write sd_out]. destruct (V (negb c)) as (n & Hn). rewrite negb_involutive in Hn. fold s in Hn.
        destruct (firstn_app_more _ n (sd_out s) [f]) as (m & Hm). exists m. now rewrite Hm.
    - intros d. unfold trace_of. destruct (side_cases c d) as [->| ->]; [rewrite at_put_same|rewrite at_put_other; apply (Nop (negb c))]. cbn [write sd_ep sd_out].
      exists []. split; [symmetry; apply app_nil_r|]. split; [discriminate|]. split; [intros ? ? ? ? ? []|]. right. split; [reflexivity|]. exists f, k, h, p. split; [reflexivity|exact Iv]. }
  destruct St as [c x j e' Hx H|c f g j e' Hn Hr H|c sid h p r j Hi Hb|c k sid h p f j Hi Hk Hs Hf].
  - apply Op; auto. destruct x; try (rewrite app_nil_r; exact (V c)). now destruct (Hx f).
  - apply Op; auto. destruct (V c) as (n & F). pose proof (Forall2_len _ _ _ _ _ F) as L. rewrite firstn_length in L. unfold trace_of in *.
    set (m := List.length (received (ep_trace (sd_ep (at_side c j))))) in *. set (out := sd_out (at_side (negb c) j)) in *.
    assert (Lm : (m < List.length out)%nat) by (apply nth_error_Some; congruence).
    assert (E : firstn n out = firstn m out) by (replace n with m by lia; reflexivity).
    exists (Datatypes.S m). assert (F1 : firstn (Datatypes.S m) out = firstn m out ++ [f]).
    { clear -Hn. revert Hn. generalize m as i. induction out as [|y out IH]; intros [|i] Hn; try discriminate; [cbn in Hn; injection Hn as ->; reflexivity|]. cbn [firstn app]. f_equal. now apply IH. }
    rewrite F1. apply Forall2_app; [rewrite <- E; exact F|]. constructor; [|constructor].
    destruct (U0 (negb c)) as [Uf _]. rewrite Forall_forall in Uf. destruct (Uf f (nth_error_In _ _ Hn)) as [Uf1 Uf2]. rewrite negb_involutive in Uf2.
    exact (crosses_received _ _ _ _ Uf1 Uf2 Hr).
  - apply Wr; [right; left; exists sid, h, p, r; auto|]. exists RR, h, p. replace (frame_stream (answer_frame sid r)) with sid by (destruct r; reflexivity). exact Hi.
  - apply Wr; [right; right; exists k, sid, h, p; auto|]. exists k, h, p. rewrite Hs. exact Hi.
Qed.
Lemma wasm_ok_init : wasm_ok joint_init.
Proof.
  constructor.
  - intros []; (split; [reflexivity|split; [reflexivity|constructor]]).
  - intros [] f [].
  - intros [] f [].
  - intros []; exists 0%nat; constructor.
Qed.
Lemma wasm_inv : forall j, wruns exported imported subscribable behaves room j -> fits j -> wasm_ok j.
Proof.
  intros j H. induction H as [|j j' H IH St]; intros U; [apply wasm_ok_init|]. apply (wasm_step j j'); auto. apply IH. now apply (fits_before j j').
Qed.

(** A request that one end handles was sent by the other. *)
Lemma wrequest_was_sent : forall j c k r, wasm_ok j -> In (k, r) (requests (trace_of (negb c) j)) ->
  kind_code (rq_type r) = Some k /\ exists q, In (HSent (FRequest q)) (trace_of c j) /\ request_received q r.
Proof.
  intros j c k r J H. unfold requests in H. apply in_flat_map in H. destruct H as (x & Hx & H). destruct x; try (destruct H; fail). destruct f as [|r'| | | |]; try (destruct H; fail).
  destruct (kind_code (rq_type r')) as [k'|] eqn:Ek; [|destruct H]. destruct H as [E|[]]. injection E as -> ->. split; [exact Ek|].
  destruct (wo_recv j J (negb c)) as (n & Hn). rewrite negb_involutive in Hn. apply in_received in Hx.
  destruct (Forall2_in _ _ _ _ _ _ Hn Hx) as (f & F1 & F2). apply firstn_in in F1.
  destruct f as [|q| | | |]; try (cbn in F2; contradiction). exists q. split; [|exact F2].
  destruct (wo_out j J _ _ F1) as [X|[(sid & h & p & o & _ & _ & X)|(k' & sid & h & p & _ & _ & _ & [])]]; [exact X|destruct o; discriminate].
Qed.
(** What one end writes on the streams of the other. *)
Inductive wpeer_frame (react : kind * request -> reply) (b : N -> pay -> pay + bytes -> Prop) (reqs : list (kind * request)) (f : frame) : Prop :=
| WPControl r : In (RC, r) reqs -> rq_stream r = frame_stream f -> match f with FRequestN _ | FCancel _ => True | _ => False end -> wpeer_frame react b reqs f
| WPRefused k r text : In (k, r) reqs -> rq_stream r = frame_stream f -> react (k, r) = Refused (frame_stream f) text -> answer_of f = Some (SError text) -> wpeer_frame react b reqs f
| WPAnswer r h p o : In (RR, r) reqs -> rq_stream r = frame_stream f -> react (RR, r) = Invoked RR (frame_stream f) h p -> b h p o -> f = answer_frame (frame_stream f) o -> wpeer_frame react b reqs f
| WPStream k r h p : In (k, r) reqs -> rq_stream r = frame_stream f -> k = RS \/ k = RC -> react (k, r) = Invoked k (frame_stream f) h p ->
    match f with FPayload _ | FError _ => True | _ => False end -> wpeer_frame react b reqs f.
Lemma wpeer_request : forall react b reqs f, wpeer_frame react b reqs f -> exists k r, In (k, r) reqs /\ rq_stream r = frame_stream f.
Proof. intros react b reqs f []; eauto. Qed.
Lemma won_peer_stream : forall j c f, wasm_ok j -> In f (sd_out (at_side (negb c) j)) -> N.odd (frame_stream f) = c ->
  wpeer_frame (reacts exported imported (negb c)) (behaves (negb c)) (requests (trace_of (negb c) j)) f.
Proof.
  intros j c f J H Hc. pose proof (fun x => served_in exported imported subscribable few (negb c) _ _ x (wo_run j J (negb c))) as RR0. fold (trace_of (negb c) j) in RR0.
  destruct (wo_out j J _ _ H) as [X|[(sid & h & p & o & X & B & ->)|(k & sid & h & p & X & K & S & M)]].
  - pose proof (st_sent _ _ (sent_of j (negb c) J) _ X) as Y. destruct f as [s|r|r|x|p|x]; cbn [frame_stream] in *.
    + destruct Y.
    + rewrite Y in Hc. now destruct c.
    + destruct Y as [Y|(r' & R1 & R2)]; [rewrite Y in Hc; now destruct c|]. eapply WPControl; eauto; exact I.
    + destruct Y as [Y|(r' & R1 & R2)]; [rewrite Y in Hc; now destruct c|]. eapply WPControl; eauto; exact I.
    + rewrite Y in Hc. now destruct c.
    + destruct (RR0 (Refused (er_stream x) (er_data x))) as (k & r & R1 & R2).
      { unfold replies. apply in_flat_map. exists (HSent (FError x)). split; [exact X|]. rewrite Hc. destruct c; now left. }
      eapply WPRefused; [exact R1|exact (reacts_refused _ _ _ _ _ _ _ R2)|exact R2|reflexivity].
  - destruct (RR0 (Invoked RR sid h p) (invoked_reply _ _ _ _ _ _ X)) as (k & r & R1 & R2).
    destruct (reacts_invoked _ _ _ _ _ _ _ _ _ R2) as [<- E]. assert (F : frame_stream (answer_frame sid o) = sid) by (destruct o; reflexivity).
    eapply WPAnswer; rewrite ?F; eauto.
  - destruct (RR0 (Invoked k sid h p) (invoked_reply _ _ _ _ _ _ X)) as (k' & r & R1 & R2).
    destruct (reacts_invoked _ _ _ _ _ _ _ _ _ R2) as [<- E]. eapply WPStream; rewrite ?S; eauto.
Qed.
(** Frames received by this end were written by the other end. *)
Lemma not_setup : forall j c f, wasm_ok j -> In f (sd_out (at_side c j)) -> forall s, f <> FSetup s.
Proof.
  intros j c f J F1 s ->. destruct (wo_out j J _ _ F1) as [X|[(sid & h & p & o & _ & _ & X)|(k & sid & h & p & _ & _ & _ & [])]].
  - exact (st_sent _ _ (sent_of j c J) _ X).
  - destruct o; discriminate.
Qed.
Lemma wreceived_from : forall j c g, wasm_ok j -> In (HRecv g) (trace_of c j) ->
  exists f, In f (sd_out (at_side (negb c) j)) /\ frame_received f g /\ frame_stream g = frame_stream f.
Proof.
  intros j c g J H. apply in_received in H. destruct (wo_recv j J c) as (n & Hn). destruct (Forall2_in _ _ _ _ _ _ Hn H) as (f & F1 & F2).
  apply firstn_in in F1. exists f. split; [exact F1|]. split; [exact F2|]. destruct (received_stream f g F2) as [E|(s & E)]; [exact E|]. now destruct (not_setup j _ f J F1 s).
Qed.
Lemma wall_delivered : forall j d, wasm_ok j ->
  List.length (received (trace_of d j)) = List.length (sd_out (at_side (negb d) j)) -> Forall2 frame_received (sd_out (at_side (negb d) j)) (received (trace_of d j)).
Proof.
  intros j d J E. destruct (wo_recv j J d) as (n & H). pose proof (Forall2_len _ _ _ _ _ H) as E'. rewrite firstn_length in E'.
  rewrite firstn_all2 in H by lia. exact H.
Qed.
Lemma whistory : forall j c, wasm_ok j -> wasm_history c (sd_ep (at_side c j)).
Proof. intros j c J. exact (whist_wasm _ _ _ c _ _ (wo_run j J c)). Qed.
Lemma wcall_parity : forall j c o k sid p b, wasm_ok j -> In (HCalled o k sid p b) (trace_of c j) -> N.odd sid = c.
Proof.
  intros j c o k sid p b J H. destruct (wasm_calls_ok c _ (whistory j c J)) as [[[[M _] _] _] G].
  destruct (fo_called c _ (mo_flux c _ M) o k sid p b H) as (x & X1 & X2). assert (L : local_id x = Some sid).
  { destruct x as [r|s|]; cbn in *; [destruct X2 as [_ ->]; reflexivity| |destruct X2]. destruct X2 as (_ & X2 & _). apply (f_equal rq_stream) in X2. cbn in X2. now rewrite X2. }
  destruct (g_loc c _ G o _ _ X1 L) as (q & _ & ->). apply nth_id_odd.
Qed.
End WasmInv.
