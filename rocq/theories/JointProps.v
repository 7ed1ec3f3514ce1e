(** C64: request-response calls between two ends of a connection. *)
From Verif Require Import Base BaseFacts FramesModel FramesProofs FramesProps WasmModel InvokeModel InvokeProofs LookupModel TcpModel TcpProofs TcpProps
  HandlerModel HandlerFacts HandlerProps HandlerCallProps HandlerServeProps JointModel JointFacts.
From Verif Require MonoModel MonoFacts MonoProps.
From Coq Require Import Permutation.

(** ** Causality: nothing arrives on the stream of a call before it was subscribed *)
Lemma view_events : forall reg sb c x e e' ev, view reg sb c x e e' -> ep_trace e' = ep_trace e ++ ev ->
  (forall o, subscribed o ev = true -> received ev = []) /\
  (forall o k sid p b, In (HCalled o k sid p b) ev -> o = len (ep_objs e) /\ subscribed o ev = false).
Proof.
  intros reg sb client x e e' ev V T.
  assert (Pick : forall ev', ep_trace e' = ep_trace e ++ ev' -> ev' = ev) by (intros ev' T'; rewrite T in T'; apply app_inv_head in T'; congruence).
  assert (Z : forall l : list frame, received (map HSent l) = []) by (induction l; auto).
  assert (Cl : forall l o k sid p b, ~ In (HCalled o k sid p b) (map HSent l)) by (intros l o k sid p b H; apply in_map_iff in H; destruct H as (g & H & _); discriminate).
  destruct V as [x e Hx|p input e|k p input b y e Hk|o y i e Ho Hl|o n s s' l e Ho Hs|o n sid a e Ho|o s e Ho|o sid a e Ho|o ev' s e Ho|o sid a b e Ho
    |s t ev' e Hev|r k e Hk|r ev' e Hk Hev|r js e Hjs Hm|f e Hf Hg|f o y e Hf Hg Ho Hsk|i k r e e' Hj He|i o n e Hj|i o s e Hj Ho|i o e Hj Ho].
  - rewrite <- (Pick []) by (symmetry; apply app_nil_r). split; [discriminate|intros ? ? ? ? ? []].
  - erewrite <- Pick by reflexivity. split; [reflexivity|intros ? ? ? ? ? [E|[]]; discriminate].
  - erewrite <- Pick by reflexivity. split; [reflexivity|]. intros o k' sid p' b' [E|[]]. injection E as <- _ _ _ _. auto.
  - erewrite <- Pick by reflexivity. split; [destruct y; reflexivity|]. intros o' k' sid p' b' [E|H]; [discriminate|]. destruct y; [|destruct H..]. destruct H as [E|[]]. discriminate.
  - erewrite <- Pick by reflexivity. split; [intros; apply Z|]. intros o' k' sid p' b' [E|H]; [discriminate|]. now destruct (Cl _ _ _ _ _ _ H).
  - erewrite <- Pick by reflexivity. split; [reflexivity|intros ? ? ? ? ? [E|[]]; discriminate].
  - erewrite <- Pick by reflexivity. split; [reflexivity|intros ? ? ? ? ? [E|[E|[]]]; discriminate].
  - erewrite <- Pick by reflexivity. split; [reflexivity|intros ? ? ? ? ? [E|[]]; discriminate].
  - erewrite <- Pick by reflexivity. split; [intros; apply Z|]. intros o' k' sid p' b' [E|H]; [discriminate|]. now destruct (Cl _ _ _ _ _ _ H).
  - rewrite <- (Pick []) by (symmetry; apply app_nil_r). split; [discriminate|intros ? ? ? ? ? []].
  - erewrite <- Pick by reflexivity. destruct Hev as [->| ->]; (split; [discriminate|]); intros ? ? ? ? ? H; cbn in H; repeat (destruct H as [E|H]; [discriminate|]); destruct H.
  - erewrite <- Pick by reflexivity. split; [discriminate|intros ? ? ? ? ? [E|[]]; discriminate].
  - erewrite <- Pick by reflexivity. destruct Hev as [->| ->]; (split; [discriminate|]); intros ? ? ? ? ? H; cbn in H; repeat (destruct H as [E|H]; [discriminate|]); destruct H.
  - erewrite <- Pick by reflexivity. split; [discriminate|intros ? ? ? ? ? [E|[]]; discriminate].
  - erewrite <- Pick by reflexivity. split; [discriminate|intros ? ? ? ? ? [E|[E|[]]]; discriminate].
  - rewrite <- (Pick (HRecv f :: map (HCall o) (passed y (calls_of f)))) by (destruct (closes f); reflexivity). split.
    + intros o' H. exfalso. cbn in H. clear -H. induction (passed y (calls_of f)) as [|z zs IH]; [discriminate|exact (IH H)].
    + intros o' k' sid p' b' [E|H]; [discriminate|]. apply in_map_iff in H. destruct H as (g & H & _). discriminate.
  - pose proof (handle_request_eq _ _ _ _ _ _ He) as E.
    rewrite <- (Pick (dispatched reg k r (len (ep_objs (drop_job i e))))) by (rewrite E; destruct (accepted reg k r && opens k); reflexivity).
    unfold dispatched. destruct (len (rq_metadata r) <? 8); [split; [discriminate|intros ? ? ? ? ? [X|[]]; discriminate]|].
    destruct (do_get k reg _); [|split; [discriminate|intros ? ? ? ? ? [X|[]]; discriminate]].
    destruct k; (split; [discriminate|]); intros ? ? ? ? ? H; cbn in H; repeat (destruct H as [X|H]; [discriminate|]); destruct H.
  - erewrite <- Pick by reflexivity. split; [discriminate|intros ? ? ? ? ? [E|[]]; discriminate].
  - erewrite <- Pick by reflexivity. split; [discriminate|intros ? ? ? ? ? [E|[]]; discriminate].
  - rewrite <- (Pick []) by (symmetry; apply app_nil_r). split; [discriminate|intros ? ? ? ? ? []].
Qed.
Lemma recvd_received : forall sid t, recvd sid t = filter (fun f => frame_stream f =? sid) (received t).
Proof.
  intros sid t. induction t as [|x t IH]; [reflexivity|]. cbn [recvd received flat_map]. fold (recvd sid t) (received t). rewrite filter_app, <- IH.
  destruct x; reflexivity.
Qed.

Section C64.
Variable exported : bool -> list reg_call.
Variable subscribable : bool -> N -> bool.
Variable behaves : bool -> N -> pay -> pay + bytes -> Prop.
Hypothesis few : forall c, len (exported c) < 2 ^ 32.
Let ok := joint_ok exported subscribable behaves.
Lemma step_trace : forall j j', ok j -> jstep exported subscribable behaves j j' -> usable j' -> forall d,
  exists ev, trace_of d j' = trace_of d j ++ ev /\ (forall o, subscribed o ev = true -> received ev = []) /\
    (forall o k sid p b, In (HCalled o k sid p b) ev -> subscribed o (trace_of d j) = false /\ subscribed o ev = false).
Proof.
  intros j j' J St U d.
  assert (Nop : exists ev, trace_of d j = trace_of d j ++ ev /\ (forall o, subscribed o ev = true -> received ev = []) /\
    (forall o k sid p b, In (HCalled o k sid p b) ev -> subscribed o (trace_of d j) = false /\ subscribed o ev = false)).
  { exists []. split; [symmetry; apply app_nil_r|]. split; [discriminate|intros ? ? ? ? ? []]. }
  assert (Op : forall c x e', hstep (reg_run (exported c)) (subscribable c) c x (sd_ep (at_side c j)) = Ok e' -> usable (put_side c (advance x e' (at_side c j)) j) ->
    exists ev, trace_of d (put_side c (advance x e' (at_side c j)) j) = trace_of d j ++ ev /\ (forall o, subscribed o ev = true -> received ev = []) /\
    (forall o k sid p b, In (HCalled o k sid p b) ev -> subscribed o (trace_of d j) = false /\ subscribed o ev = false)).
  { intros c x e' H Us. unfold trace_of. destruct (side_cases c d) as [->| ->]; [|rewrite at_put_other; exact Nop]. rewrite at_put_same. set (s := at_side c j) in *.
    destruct (jo_run _ _ _ j J c) as (R1 & R2 & R3). fold s in R1, R2, R3. destruct (Us c) as [_ U2]. rewrite at_put_same in U2. cbn [advance sd_ops sd_ep] in *.
    change (2 ^ 30) with 1073741824 in R2, U2.
    destruct (good_run (reg_run (exported c)) (subscribable c) c (sd_ops s) ep_init (sd_ep s) (good_init c) ltac:(cbn [ep_init ep_ids]; lia) R3 R1) as [Gd Ids].
    cbn [ep_init ep_ids] in Ids.
    assert (Vw : view (reg_run (exported c)) (subscribable c) c x (sd_ep s) e').
    { apply hstep_view; auto. intros Hx. rewrite calls_app, calls_cons, Hx in U2. lia. }
    destruct (view_grows _ _ _ _ _ _ Vw) as (ev & T & _). destruct (view_events _ _ _ _ _ _ ev Vw T) as [E1 E2]. exists ev. split; [exact T|]. split; [exact E1|].
    intros o k sid p b Hi. destruct (E2 o k sid p b Hi) as [-> E3]. split; [|exact E3].
    destruct (run_inv (reg_run (exported c)) (subscribable c) c (mono_ok c) (mono_ok_init c) (mono_ok_view (reg_run (exported c)) (subscribable c) c) (sd_ops s) (sd_ep s)) as [M _]; auto; [lia|].
    exact (proj1 (unseen_facts _ _ (mo_new c _ M _ (N.le_refl _)))). }
  destruct St as [c x j e' Hx H|c g j e' Hr H|c sid h p r j Hi Hb|c k sid h p f j Hi Hk Hs Hf].
  - apply Op; auto.
  - apply Op; auto.
  - unfold trace_of. destruct (side_cases c d) as [->| ->]; [rewrite at_put_same; exact Nop|rewrite at_put_other; exact Nop].
  - unfold trace_of. destruct (side_cases c d) as [->| ->]; [rewrite at_put_same; exact Nop|rewrite at_put_other; exact Nop].
Qed.
(** Frames received on a stream of this end were written by the other end. *)
Lemma received_from : forall j c g, ok j -> In (HRecv g) (trace_of c j) ->
  exists f, In f (sd_out (at_side (negb c) j)) /\ frame_received f g /\ frame_stream g = frame_stream f.
Proof.
  intros j c g J H. apply in_received in H. destruct (jo_recv _ _ _ j J c) as (n & Hn). destruct (Forall2_in _ _ _ _ _ _ Hn H) as (f & F1 & F2).
  apply firstn_in in F1. exists f. split; [exact F1|]. split; [exact F2|]. destruct (received_stream f g F2) as [E|(s & ->)]; [exact E|]. exfalso.
  destruct (jo_out _ _ _ j J _ _ F1) as [X|[(sid & h & p & o & _ & _ & X)|(k & sid & h & p & _ & _ & _ & [])]].
  - exact (st_sent _ _ (history_sent _ _ _ _ _ (jo_run _ _ _ j J (negb c))) _ X).
  - destruct o; discriminate.
Qed.
Lemma peer_request : forall ex b reqs f, peer_frame ex b reqs f -> exists k r, In (k, r) reqs /\ rq_stream r = frame_stream f.
Proof. intros ex b reqs f []; eauto. Qed.
Lemma call_parity : forall j c o k sid p b, ok j -> In (HCalled o k sid p b) (trace_of c j) -> N.odd sid = c.
Proof.
  intros j c o k sid p b J H. destruct (history_flux _ _ _ _ _ (jo_run _ _ _ j J c)) as [F G].
  destruct (fo_called c _ F o k sid p b H) as (x & X1 & X2). assert (L : local_id x = Some sid).
  { destruct x as [r|s|]; cbn in *; [destruct X2 as [_ ->]; reflexivity| |destruct X2]. destruct X2 as (_ & X2 & _). apply (f_equal rq_stream) in X2. cbn in X2. now rewrite X2. }
  destruct (g_loc c _ G o _ _ X1 L) as (q & _ & ->). apply nth_id_odd.
Qed.
Lemma demand_sent : forall sid q t, In (HSent (FRequest q)) t -> rq_stream q = sid -> In (FRequest q) (sent demand_frame sid t).
Proof. intros sid q t H E. unfold sent. apply in_flat_map. exists (HSent (FRequest q)). split; [exact H|]. cbn. rewrite E, N.eqb_refl. now left. Qed.
(** Requests handled by the peer on the stream of a call are that call's request. *)
Lemma call_requests : forall j c o sid p b k r, ok j -> In (HCalled o RR sid p b) (trace_of c j) ->
  In (k, r) (requests (trace_of (negb c) j)) -> rq_stream r = sid ->
  subs o (trace_of c j) <> 0%nat /\ k = RR /\ rq_metadata r = py_meta p /\ rq_data r = py_data p.
Proof.
  intros j c o sid p b k r J Hc Hr Es. destruct (request_was_sent exported subscribable behaves j c k r J Hr) as (Hk & q & Q1 & Q2).
  pose proof (C60_one_request_per_subscription _ _ _ _ _ _ _ _ _ (jo_run _ _ _ j J c) Hc) as S. destruct Q2 as (T & St & M & D & _).
  pose proof (demand_sent sid q _ Q1 (eq_trans (eq_sym St) Es)) as I. unfold trace_of in *. rewrite S in I. split.
  - intros Z. rewrite Z in I. destruct I.
  - apply repeat_spec in I. injection I as ->. cbn in T, M, D. rewrite T in Hk. cbn in Hk. injection Hk as <-. auto.
Qed.
Lemma unsubscribed_quiet : forall j c o sid p b, ok j -> In (HCalled o RR sid p b) (trace_of c j) -> subscribed o (trace_of c j) = false -> recvd sid (trace_of c j) = [].
Proof.
  intros j c o sid p b J Hc Hs. destruct (recvd sid (trace_of c j)) as [|g gs] eqn:E; [reflexivity|]. exfalso.
  assert (Hg : In g (recvd sid (trace_of c j))) by (rewrite E; now left). rewrite recvd_received in Hg. apply filter_In in Hg. destruct Hg as [Hg Hgs]. apply N.eqb_eq in Hgs.
  apply in_received in Hg. destruct (received_from j c g J Hg) as (f & F1 & _ & F3). rewrite Hgs in F3.
  assert (Pf : N.odd (frame_stream f) = c) by (rewrite <- F3; exact (call_parity j c o _ _ _ _ J Hc)).
  destruct (peer_request _ _ _ _ (on_peer_stream exported subscribable behaves j c f few J F1 Pf)) as (k & r & R1 & R2).
  destruct (call_requests j c o sid p b k r J Hc R1 ltac:(congruence)) as (Z & _). apply Z. unfold subs.
  clear -Hs. induction (trace_of c j) as [|x t IH]; [reflexivity|]. cbn [subscribed existsb] in Hs. apply orb_false_iff in Hs. destruct Hs as [H1 H2]. cbn [filter]. rewrite H1. auto.
Qed.
Lemma causal : forall j, jruns exported subscribable behaves j -> usable j -> forall c o sid p b, In (HCalled o RR sid p b) (trace_of c j) ->
  recvd sid (after o (trace_of c j)) = recvd sid (trace_of c j).
Proof.
  intros j H. induction H as [|j j' H IH St]; intros U c o sid p b Hc; [destruct c; destruct Hc|].
  pose proof (usable_before exported subscribable behaves j j' St U) as U0.
  pose proof (joint_inv exported subscribable behaves j H U0) as J.
  pose proof (joint_inv exported subscribable behaves j' (jr_step _ _ _ _ _ H St) U) as J'.
  destruct (subscribed o (trace_of c j')) eqn:S'; [|rewrite (unsubscribed_quiet j' c o sid p b J' Hc S'), (after_none _ _ S'); reflexivity].
  destruct (step_trace j j' J St U c) as (ev & T & E1 & E2). rewrite T in *. rewrite subscribed_app in S'. rewrite after_app, recvd_app.
  apply in_app_iff in Hc. destruct Hc as [Hc|Hc].
  - destruct (subscribed o (trace_of c j)) eqn:S; [rewrite recvd_app, (IH U0 c o sid p b Hc); reflexivity|].
    rewrite (unsubscribed_quiet j c o sid p b J Hc S). cbn in S'. specialize (E1 o S'). cbn [app].
    assert (X : recvd sid ev = []) by (rewrite recvd_received, E1; reflexivity). rewrite X.
    clear -E1. rewrite recvd_received. assert (Y : received (after o ev) = []); [|now rewrite Y].
    induction ev as [|x ev IH]; [reflexivity|]. cbn [received flat_map] in E1. apply app_eq_nil in E1. destruct E1 as [E1 E2]. cbn [after]. destruct (is_sub o x); auto.
  - destruct (E2 o RR sid p b Hc) as [E3 E4]. rewrite E3, E4 in S'. discriminate.
Qed.

(** ** C64 *)
(** What the handler that a payload [p] selects at the other end may answer. *)
Definition outcome (ex : list reg_call) (b : N -> pay -> pay + bytes -> Prop) (p : pay) (k : scall) : Prop :=
  if len (py_meta p) <? 8 then k = SError [73; 110; 118; 97; 108; 105; 100; 32; 109; 101; 116; 97; 100; 97; 116; 97]
  else match nth_error (exports_of RR ex) (N.to_nat (unbe (firstn 4 (py_meta p)))) with
       | None => k = SError [110; 111; 116; 95; 102; 111; 117; 110; 100]
       | Some (_, h) => (exists v, b h {| py_data := py_data p; py_meta := skipn 8 (py_meta p) |} (inl v) /\ k = SNext v) \/
                        (exists x, b h {| py_data := py_data p; py_meta := skipn 8 (py_meta p) |} (inr x) /\ k = SError x)
       end.
Lemma call_frames : forall j c o sid p b g, ok j -> In (HCalled o RR sid p b) (trace_of c j) -> In (HRecv g) (trace_of c j) -> frame_stream g = sid ->
  exists k, answer_of g = Some k /\ outcome (exported (negb c)) (behaves (negb c)) p k.
Proof.
  intros j c o sid p b g J Hc Hg Es. destruct (received_from j c g J Hg) as (f & F1 & F2 & F3).
  assert (Pf : N.odd (frame_stream f) = c) by (rewrite <- F3, Es; exact (call_parity j c o _ _ _ _ J Hc)).
  assert (A : match f with FPayload _ | FError _ => True | _ => False end -> g = f).
  { intros M. destruct f, g; cbn in F2; try contradiction; congruence. }
  destruct (on_peer_stream exported subscribable behaves j c f few J F1 Pf) as [r R1 R2 M|k r text R1 R2 R3 M|r h q x R1 R2 R3 B M|k r h q R1 R2 K R3 M].
  - destruct (call_requests j c o sid p b RC r J Hc R1 ltac:(congruence)) as (_ & Z & _). discriminate.
  - destruct (call_requests j c o sid p b k r J Hc R1 ltac:(congruence)) as (_ & -> & Z1 & Z2). exists (SError text).
    rewrite A by (destruct f; try discriminate M; exact I). split; [exact M|]. unfold outcome. cbn in R3. rewrite Z1 in R3.
    destruct (len (py_meta p) <? 8); [injection R3 as _ <-; reflexivity|]. destruct (nth_error _ _) as [[i h]|]; [discriminate|]. injection R3 as _ <-. reflexivity.
  - destruct (call_requests j c o sid p b RR r J Hc R1 ltac:(congruence)) as (_ & _ & Z1 & Z2). rewrite A by (rewrite M; destruct x; exact I).
    unfold outcome. cbn in R3. rewrite Z1, Z2 in R3. destruct (len (py_meta p) <? 8); [discriminate|]. destruct (nth_error _ _) as [[i h']|]; [|discriminate].
    injection R3 as _ -> <-. rewrite M. destruct x as [v|v]; [exists (SNext v)|exists (SError v)]; (split; [destruct v; reflexivity|]); [left|right]; eauto.
  - destruct (call_requests j c o sid p b k r J Hc R1 ltac:(congruence)) as (_ & -> & _). destruct K; discriminate.
Qed.
Lemma call_prompt : forall j c o sid p b, ok j -> In (HCalled o RR sid p b) (trace_of c j) -> prompt (recvd sid (trace_of c j)) /\
  Forall (outcome (exported (negb c)) (behaves (negb c)) p) (answers (recvd sid (trace_of c j))) /\
  (recvd sid (trace_of c j) <> [] -> answers (recvd sid (trace_of c j)) <> []).
Proof.
  intros j c o sid p b J Hc. assert (A : forall g, In g (recvd sid (trace_of c j)) -> exists k, answer_of g = Some k /\ outcome (exported (negb c)) (behaves (negb c)) p k).
  { intros g Hg. rewrite recvd_received in Hg. apply filter_In in Hg. destruct Hg as [Hg Es]. apply N.eqb_eq in Es. apply in_received in Hg. exact (call_frames j c o sid p b g J Hc Hg Es). }
  revert A. generalize (recvd sid (trace_of c j)) as l. induction l as [|g l IH]; intros A; [split; [exact I|split; [constructor|auto]]|].
  destruct (A g (or_introl eq_refl)) as (k & K1 & K2). destruct IH as (_ & I2 & _); [intros; apply A; now right|].
  cbn [prompt answers flat_map]. rewrite K1. split; [exact I|]. split; [constructor; auto|discriminate].
Qed.
End C64.

(** Nothing but an outcome of the handler selected by the payload, applied to
    that payload, is ever delivered to a call; whatever else happens on the
    connection. *)
Theorem C64_only_the_handlers_outcome :
  forall exported sb behaves, (forall c, len (exported c) < 2 ^ 32) ->
  forall j, jruns exported sb behaves j -> usable j ->
  forall c o sid p input k, In (HCalled o RR sid p input) (trace_of c j) -> In k (got o (trace_of c j)) ->
    outcome (exported (negb c)) (behaves (negb c)) p k.
Proof.
  intros exported sb behaves L j R U c o sid p input k Hc Hk. pose proof (joint_inv exported sb behaves j R U) as J.
  pose proof (C60_only_answers_on_own_stream _ _ _ _ _ _ _ _ _ (jo_run _ _ _ j J c) Hc) as S.
  destruct (call_prompt exported sb behaves L j c o sid p input J Hc) as (_ & F & _). unfold trace_of in *. rewrite Forall_forall in F. apply F.
  clear -S Hk. induction S; [destruct Hk|right; auto|]. destruct Hk as [->|Hk]; [now left|right; auto].
Qed.
(** Everything was delivered, the other end is idle and its handlers have
    answered. *)
Definition quiet (c : bool) (j : joint) : Prop :=
  (forall d, List.length (received (trace_of d j)) = List.length (sd_out (at_side (negb d) j))) /\
  ep_jobs (sd_ep (at_side (negb c) j)) = [] /\
  forall sid h p, In (HInvoke RR sid h p) (trace_of (negb c) j) -> exists r, In (answer_frame sid r) (sd_out (at_side (negb c) j)).
Lemma Forall2_len : forall A B (P : A -> B -> Prop) l m, Forall2 P l m -> List.length l = List.length m.
Proof. induction 1; cbn; congruence. Qed.
Lemma all_delivered : forall exported sb behaves j d, joint_ok exported sb behaves j ->
  List.length (received (trace_of d j)) = List.length (sd_out (at_side (negb d) j)) -> Forall2 frame_received (sd_out (at_side (negb d) j)) (received (trace_of d j)).
Proof.
  intros exported sb behaves j d J E. destruct (jo_recv _ _ _ j J d) as (n & H). pose proof (Forall2_len _ _ _ _ _ H) as E'. rewrite firstn_length in E'.
  rewrite firstn_all2 in H by lia. exact H.
Qed.
(** Then a subscribed call has an outcome of that handler, and it is the one
    that the subscriber sees. *)
Theorem C64_call_answered :
  forall exported sb behaves, (forall c, len (exported c) < 2 ^ 32) ->
  forall j, jruns exported sb behaves j -> usable j ->
  forall c o sid p input, In (HCalled o RR sid p input) (trace_of c j) -> In (HSubscribed o) (trace_of c j) -> quiet c j ->
  exists k, outcome (exported (negb c)) (behaves (negb c)) p k /\ hd_error (got o (trace_of c j)) = Some k /\
    forall Q (h : MonoModel.handlers pay bytes Q (MonoModel.pcode pay bytes)) sched,
    let m := MonoModel.mrun MonoModel.proc_source MonoModel.proc_code sched
      (MonoModel.minit MonoModel.pstore0 [MonoModel.ASubscribe h :: MonoProps.results (flat_map result_of (got o (trace_of c j)))]) in
    MonoModel.mc_stack m = [] -> MonoModel.mc_threads m = [] ->
    MonoFacts.outcomes 0 (MonoModel.mc_trace m) = match k with SNext v => MonoProps.seen h (inl v) | SError x => MonoProps.seen h (inr x) | SComplete => [] end.
Proof.
  intros exported sb behaves L j R U c o sid p input Hc Hs (D & Id & An). pose proof (joint_inv exported sb behaves j R U) as J.
  pose proof (jo_run _ _ _ j J c) as Hist. fold (trace_of c j) in Hist.
  destruct (call_prompt exported sb behaves L j c o sid p input J Hc) as (P1 & P2 & P3).
  pose proof (causal exported sb behaves L j R U c o sid p input Hc) as Ca. rewrite <- Ca in P1, P2, P3.
  assert (Ne : recvd sid (trace_of c j) <> []).
  { (* the request arrives *)
    pose proof (C60_one_request_per_subscription _ _ _ _ _ _ _ _ _ Hist Hc) as S.
    assert (Sn : In (HSent (asking sid p)) (trace_of c j)).
    { assert (X : In (asking sid p) (sent demand_frame sid (trace_of c j))).
      { unfold trace_of in *. rewrite S. destruct (subs o (ep_trace (sd_ep (at_side c j)))) as [|n] eqn:En; [|now left]. exfalso. unfold subs in En. apply length_zero_iff_nil in En.
        assert (Y : In (HSubscribed o) (filter (is_sub o) (ep_trace (sd_ep (at_side c j))))) by (apply filter_In; split; [exact Hs|cbn; apply N.eqb_refl]).
        rewrite En in Y. destruct Y. }
      unfold sent in X. apply in_flat_map in X. destruct X as (x & X1 & X2). destruct x; try (destruct X2; fail). destruct (demand_frame f && (frame_stream f =? sid)); [|destruct X2].
      destruct X2 as [->|[]]. exact X1. }
    pose proof (all_delivered _ _ _ _ _ J (D (negb c))) as F. rewrite negb_involutive in F. pose proof (all_delivered _ _ _ _ _ J (D c)) as F'.
    destruct (Forall2_in_l _ _ _ _ _ _ F (jo_sent _ _ _ j J c _ Sn)) as (g & G1 & G2). unfold asking in G2. destruct g as [|r| | | |]; cbn [frame_received] in G2; try contradiction.
    destruct G2 as (T & St & _). cbn [rq_type rq_stream] in T, St.
    assert (Rq : In (RR, r) (requests (trace_of (negb c) j))).
    { unfold requests. apply in_flat_map. exists (HRecv (FRequest r)). split; [now apply in_received|]. rewrite T. now left. }
    pose proof (C61_idle_all_answered _ _ _ _ _ (L (negb c)) (jo_run _ _ _ j J (negb c)) Id) as Pm.
    assert (Rp : In (reaction (exported (negb c)) (RR, r)) (replies (negb c) (trace_of (negb c) j))).
    { eapply Permutation_in; [symmetry; exact Pm|]. apply in_map. exact Rq. }
    assert (W : exists f, In f (sd_out (at_side (negb c) j)) /\ frame_stream f = sid).
    { unfold replies in Rp. apply in_flat_map in Rp. destruct Rp as (x & X1 & X2). destruct x; try (destruct X2; fail).
      - destruct f as [| | | | |y]; try (destruct X2; fail). destruct (Bool.eqb (N.odd (er_stream y)) (negb c)); [destruct X2|]. destruct X2 as [E|[]]. symmetry in E.
        apply reaction_refused in E. exists (FError y). split; [exact (jo_sent _ _ _ j J _ _ X1)|]. cbn. congruence.
      - destruct X2 as [E|[]]. symmetry in E. destruct (reaction_invoked _ _ _ _ _ _ _ E) as [-> E2]. rewrite E2 in St. subst sid0.
        destruct (An _ _ _ X1) as (o' & Ho'). exists (answer_frame sid o'). split; [exact Ho'|]. destruct o'; reflexivity. }
    destruct W as (f & W1 & W2). destruct (Forall2_in_l _ _ _ _ _ _ F' W1) as (g & V1 & V2).
    apply in_received in V1. intros Z.
    assert (Y : In g (recvd sid (trace_of c j))); [|rewrite Z in Y; destruct Y]. rewrite recvd_received. apply filter_In. split; [now apply in_received|]. apply N.eqb_eq.
    destruct (received_stream f g V2) as [E|(s & ->)]; [congruence|]. exfalso. cbn in W2. subst sid.
    destruct (jo_out _ _ _ j J _ _ W1) as [X|[(sid & h & q & o' & _ & _ & X)|(k & sid & h & q & _ & _ & _ & [])]].
    - exact (st_sent _ _ (history_sent _ _ _ _ _ (jo_run _ _ _ j J (negb c))) _ X).
    - destruct o'; discriminate. }
  rewrite Ca in P3. specialize (P3 Ne). rewrite <- Ca in P3.
  pose proof (C60_first_answer_delivered _ _ _ _ _ _ _ _ _ Hist Hc P1) as F.
  pose proof (C60_subscriber_sees_first_answer _ _ _ _ _ _ _ _ _ Hist Hc P1) as V. unfold trace_of in *.
  destruct (answers (recvd sid (after o (ep_trace (sd_ep (at_side c j)))))) as [|k ks]; [contradiction|]. exists k. split; [now inversion P2|]. split; [exact F|].
  intros Q h sched Hm1 Hm2. etransitivity; [exact (V Q h sched Hm1 Hm2)|]. destruct k; reflexivity.
Qed.

(** Two calls: one is answered by the second exported handler, the other asks for
    a handler that does not exist; the server calls the client in between.  Part
    of the bytes arrives early. *)
Definition C64_exports (c : bool) : list reg_call := if c then [CExport RR ([97], [98]) 3] else [CExport RR ([97], [98]) 10; CExport RR ([97], [99]) 12].
Definition C64_behaves (c : bool) (h : N) (p : pay) (r : pay + bytes) : Prop := if c then r = inr [9] else r = inl {| py_data := h :: py_data p; py_meta := py_meta p |}.
Definition C64_do (c : bool) (x : hop) (j : joint) : joint :=
  put_side c (advance x (match hstep (reg_run (C64_exports c)) (fun _ => true) c x (sd_ep (at_side c j)) with Ok e => e | _ => ep_init end) (at_side c j)) j.
Definition C64_pay1 : pay := {| py_data := [5]; py_meta := [0; 0; 0; 1; 0; 0; 0; 0; 77] |}.
Definition C64_pay2 : pay := {| py_data := [6]; py_meta := [0; 0; 0; 2; 0; 0; 0; 0] |}.
Definition C64_writes (fs : list frame) : list (list bytes) := flat_map (fun f => match conn_write f with Ok w => [w] | _ => [] end) fs.
Definition C64_writable (fs : list frame) : bool := forallb (fun f => match conn_write f with Ok _ => true | _ => false end) fs.
Lemma C64_reads : forall n fs gs, C64_writable fs = true ->
  read_frames_all 9 [] [Chunk (firstn n (concat (map (@concat N) (C64_writes fs))))] = Some (gs, ConnEof) -> reads_from fs gs.
Proof.
  intros n fs gs H1 H2. exists (C64_writes fs), [firstn n (concat (map (@concat N) (C64_writes fs)))], (skipn n (concat (map (@concat N) (C64_writes fs)))), 9%nat.
  split; [|split; [|exact H2]].
  { clear -H1. induction fs as [|f fs IH]; [constructor|]. cbn [C64_writable forallb] in H1. apply andb_prop in H1. destruct H1 as [A B].
    cbn [C64_writes flat_map]. destruct (conn_write f) eqn:E; try discriminate. constructor; auto. }
  cbn [concat]. rewrite app_nil_r. apply firstn_skipn.
Qed.
Definition C64_get (c : bool) (n : nat) (j : joint) : joint := C64_do c (XFrame (nth n (sd_out (at_side (negb c) j)) (FCancel {| cn_stream := 0 |}))) j.
Definition C64_reply (c : bool) (sid : N) (r : pay + bytes) (j : joint) : joint := put_side c (write (answer_frame sid r) (at_side c j)) j.
Definition C64_1 := C64_do true (XCall RR C64_pay1 false) joint_init.
Definition C64_2 := C64_do true (XSubscribe 0) C64_1.
Definition C64_3 := C64_do true (XCall RR C64_pay2 false) C64_2.
Definition C64_4 := C64_do true (XSubscribe 1) C64_3.
Definition C64_5 := C64_get false 0 C64_4.
Definition C64_6 := C64_do false (XJob 0) C64_5.
Definition C64_7 := C64_reply false 1 (inl {| py_data := [12; 5]; py_meta := [77] |}) C64_6.
Definition C64_8 := C64_do false (XCall RR {| py_data := []; py_meta := [0; 0; 0; 0; 0; 0; 0; 0] |} false) C64_7.
Definition C64_9 := C64_do false (XSubscribe 0) C64_8.
Definition C64_10 := C64_get false 1 C64_9.
Definition C64_11 := C64_do false (XJob 0) C64_10.
Definition C64_12 := C64_get true 0 C64_11.
Definition C64_13 := C64_get true 1 C64_12.
Definition C64_14 := C64_do true (XJob 0) C64_13.
Definition C64_15 := C64_reply true 2 (inr [9]) C64_14.
Definition C64_16 := C64_get true 2 C64_15.
Definition C64_17 := C64_get false 2 C64_16.
Lemma C64_op : forall c x j, (forall f, x <> XFrame f) ->
  hstep (reg_run (C64_exports c)) (fun _ => true) c x (sd_ep (at_side c j)) =
    Ok (match hstep (reg_run (C64_exports c)) (fun _ => true) c x (sd_ep (at_side c j)) with Ok e => e | _ => ep_init end) ->
  jruns C64_exports (fun _ _ => true) C64_behaves j -> jruns C64_exports (fun _ _ => true) C64_behaves (C64_do c x j).
Proof. intros c x j Hx H R. eapply jr_step; [exact R|]. unfold C64_do. apply JOp; auto. Qed.
Lemma C64_frame : forall m c n j, let g := nth n (sd_out (at_side (negb c) j)) (FCancel {| cn_stream := 0 |}) in
  hstep (reg_run (C64_exports c)) (fun _ => true) c (XFrame g) (sd_ep (at_side c j)) =
    Ok (match hstep (reg_run (C64_exports c)) (fun _ => true) c (XFrame g) (sd_ep (at_side c j)) with Ok e => e | _ => ep_init end) ->
  C64_writable (sd_out (at_side (negb c) j)) = true ->
  read_frames_all 9 [] [Chunk (firstn m (concat (map (@concat N) (C64_writes (sd_out (at_side (negb c) j))))))] = Some (received (trace_of c j) ++ [g], ConnEof) ->
  jruns C64_exports (fun _ _ => true) C64_behaves j -> jruns C64_exports (fun _ _ => true) C64_behaves (C64_get c n j).
Proof. intros m c n j g H W V R. eapply jr_step; [exact R|]. unfold C64_get, C64_do. apply JFrame; [apply (C64_reads m); auto|exact H]. Qed.
Example C64_example :
  jruns C64_exports (fun _ _ => true) C64_behaves C64_17 /\ usable C64_17 /\ quiet true C64_17 /\ quiet false C64_17 /\
  In (HCalled 0 RR 1 C64_pay1 false) (trace_of true C64_17) /\ In (HSubscribed 0) (trace_of true C64_17) /\
  got 0 (trace_of true C64_17) = [SNext {| py_data := [12; 5]; py_meta := [77] |}] /\ got 1 (trace_of true C64_17) = [SError not_found] /\
  got 0 (trace_of false C64_17) = [SError [9]].
Proof.
  split.
  { unfold C64_17. apply (C64_frame 1000); [vm_compute; reflexivity..|].
    unfold C64_16. apply (C64_frame 1000); [vm_compute; reflexivity..|].
    unfold C64_15. eapply jr_step; [|unfold C64_reply; eapply (JAnswer _ _ _ true 2 3); [vm_compute; tauto|reflexivity]].
    unfold C64_14. apply C64_op; [discriminate|vm_compute; reflexivity|].
    unfold C64_13. apply (C64_frame 40); [vm_compute; reflexivity..|].
    unfold C64_12. apply (C64_frame 33); [vm_compute; reflexivity..|].
    unfold C64_11. apply C64_op; [discriminate|vm_compute; reflexivity|].
    unfold C64_10. apply (C64_frame 1000); [vm_compute; reflexivity..|].
    unfold C64_9. apply C64_op; [discriminate|vm_compute; reflexivity|].
    unfold C64_8. apply C64_op; [discriminate|vm_compute; reflexivity|].
    unfold C64_7. eapply jr_step; [|unfold C64_reply; eapply (JAnswer _ _ _ false 1 12); [vm_compute; tauto|reflexivity]].
    unfold C64_6. apply C64_op; [discriminate|vm_compute; reflexivity|].
    unfold C64_5. apply (C64_frame 40); [vm_compute; reflexivity..|].
    unfold C64_4. apply C64_op; [discriminate|vm_compute; reflexivity|].
    unfold C64_3. apply C64_op; [discriminate|vm_compute; reflexivity|].
    unfold C64_2. apply C64_op; [discriminate|vm_compute; reflexivity|].
    unfold C64_1. apply C64_op; [discriminate|vm_compute; reflexivity|]. constructor. }
  split.
  { intros c. split; [|destruct c; vm_compute; reflexivity]. destruct c.
    - let l := eval vm_compute in (sd_out (at_side true C64_17)) in change (sd_out (at_side true C64_17)) with l. repeat constructor; cbn; lia.
    - let l := eval vm_compute in (sd_out (at_side false C64_17)) in change (sd_out (at_side false C64_17)) with l. repeat constructor; cbn; lia. }
  split; [|split; [|vm_compute; tauto]].
  - split; [intros []; reflexivity|]. split; [reflexivity|]. intros sid h p H. vm_compute in H. repeat match type of H with _ \/ _ => destruct H as [H|H]; [try discriminate H|] end; [|destruct H].
    injection H as <- <- <-. exists (inl {| py_data := [12; 5]; py_meta := [77] |}). vm_compute. tauto.
  - split; [intros []; reflexivity|]. split; [reflexivity|]. intros sid h p H. vm_compute in H. repeat match type of H with _ \/ _ => destruct H as [H|H]; [try discriminate H|] end; [|destruct H].
    injection H as <- <- <-. exists (inr [9]). vm_compute. tauto.
Qed.
Print Assumptions C64_only_the_handlers_outcome.
Print Assumptions C64_call_answered.
