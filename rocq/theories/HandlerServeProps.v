(** C61, C62: requests served at one end of a connection. *)
From Verif Require Import Base BaseFacts FramesModel WasmModel InvokeModel InvokeProofs LookupModel HandlerModel HandlerFacts HandlerProps.
From Verif Require MonoModel MonoFacts MonoProps MonoObserve FluxModel FluxFacts FluxProps.
From Coq Require Import Permutation.

(** ** C61.  Requests received, with their kinds, and requests not yet served. *)
Definition kind_code (ty : N) : option kind :=
  match ty with 4 => Some RR | 5 => Some FNF | 6 => Some RS | 7 => Some RC | _ => None end.
Definition requests (t : list hevent) : list (kind * request) :=
  flat_map (fun x => match x with HRecv (FRequest r) => match kind_code (rq_type r) with Some k => [(k, r)] | None => [] end | _ => [] end) t.
Definition pending (e : ep) : list (kind * request) :=
  flat_map (fun j => match j with JHandle k r => [(k, r)] | _ => [] end) (ep_jobs e).
(** The reaction to a request: a handler is invoked, or an error is sent. *)
Inductive reply := Invoked (k : kind) (sid h : N) (p : pay) | Refused (sid : N) (text : bytes).
(** Errors on the streams of the peer are refusals (errors on streams of this
    end come from the inputs of channels). *)
Definition replies (client : bool) (t : list hevent) : list reply :=
  flat_map (fun x => match x with
    | HInvoke k sid h p => [Invoked k sid h p]
    | HSent (FError x) => if Bool.eqb (N.odd (er_stream x)) client then [] else [Refused (er_stream x) (er_data x)]
    | _ => [] end) t.
(** The reaction a request is to get: the first four bytes of the metadata
    select a handler among the exports of that kind, counted from 0. *)
Definition reaction (exported : list reg_call) (kr : kind * request) : reply :=
  let (k, r) := kr in
  if len (rq_metadata r) <? 8 then Refused (rq_stream r) [73; 110; 118; 97; 108; 105; 100; 32; 109; 101; 116; 97; 100; 97; 116; 97]
  else match nth_error (exports_of k exported) (N.to_nat (unbe (firstn 4 (rq_metadata r)))) with
       | None => Refused (rq_stream r) [110; 111; 116; 95; 102; 111; 117; 110; 100]
       | Some (_, h) => Invoked k (rq_stream r) h
           {| py_data := rq_data r; py_meta := match k with RR | FNF => skipn 8 (rq_metadata r) | _ => rq_metadata r end |}
       end.

Lemma requests_app : forall t u, requests (t ++ u) = requests t ++ requests u.
Proof. intros. apply flat_map_app. Qed.
Lemma replies_app : forall c t u, replies c (t ++ u) = replies c t ++ replies c u.
Proof. intros. apply flat_map_app. Qed.
Lemma kind_code_of : forall ty, kind_of ty = kind_code ty.
Proof.
  intros ty. unfold kind_of, kind_code, FrameTypeRequestResponse, FrameTypeRequestFNF, FrameTypeRequestStream, FrameTypeRequestChannel.
  destruct (N.eqb_spec ty 4) as [->|?]; [reflexivity|]. destruct (N.eqb_spec ty 5) as [->|?]; [reflexivity|].
  destruct (N.eqb_spec ty 6) as [->|?]; [reflexivity|]. destruct (N.eqb_spec ty 7) as [->|?]; [reflexivity|].
  destruct ty as [|[[[]|[]|]|[[]|[]|]|]]; try reflexivity; contradiction.
Qed.
Lemma dispatched_reply : forall exported client k r o, len exported < 2 ^ 32 -> N.odd (rq_stream r) = negb client ->
  replies client (dispatched (reg_run exported) k r o) = [reaction exported (k, r)].
Proof.
  intros exported client k r o L P. unfold dispatched, reaction. destruct (len (rq_metadata r) <? 8).
  - cbn. rewrite P. now destruct client.
  - rewrite get_result, get_handler_spec, nth_error_map by (rewrite len_map; pose proof (len_exports k exported); change (2 ^ 32) with 4294967296 in L; lia).
    rewrite takeN_firstn, dropN_skipn. change (N.to_nat 4) with 4%nat. change (N.to_nat 8) with 8%nat. destruct (nth_error (exports_of k exported) _) as [[i h]|]; cbn [option_map snd].
    + destruct k; reflexivity.
    + cbn. rewrite P. now destruct client.
Qed.
Definition served (client : bool) (exported : list reg_call) (e : ep) : Prop :=
  Permutation (replies client (ep_trace e) ++ map (reaction exported) (pending e)) (map (reaction exported) (requests (ep_trace e))).
Lemma pending_add : forall js e, pending (add_jobs js e) = pending e ++ flat_map (fun j => match j with JHandle k r => [(k, r)] | _ => [] end) js.
Proof. intros. unfold pending. cbn [add_jobs ep_jobs]. apply flat_map_app. Qed.
Lemma pending_drop : forall i e j, nth_error (ep_jobs e) i = Some j ->
  Permutation (pending e) (match j with JHandle k r => [(k, r)] | _ => [] end ++ pending (drop_job i e)).
Proof.
  intros i e j H. unfold pending. cbn [drop_job ep_jobs]. apply nth_error_split in H. destruct H as (a & b & -> & <-).
  rewrite firstn_app, Nat.sub_diag, firstn_all. cbn [firstn]. rewrite app_nil_r.
  replace (skipn (S (List.length a)) (a ++ j :: b)) with b.
  2:{ clear. induction a; [reflexivity|exact IHa]. }
  rewrite !flat_map_app. cbn [flat_map]. rewrite !app_assoc. apply Permutation_app_tail, Permutation_app_comm.
Qed.

Section Props61.
Variable exported : list reg_call.
Variable subscribable : N -> bool.
Variable client : bool.
Hypothesis few : len exported < 2 ^ 32.
Let reg := reg_run exported.
Lemma served_step : forall e e' ev, served client exported e -> ep_trace e' = ep_trace e ++ ev ->
  Permutation (replies client ev ++ map (reaction exported) (pending e')) (map (reaction exported) (pending e) ++ map (reaction exported) (requests ev)) ->
  served client exported e'.
Proof.
  unfold served. intros e e' ev H T P. rewrite T, replies_app, requests_app, map_app. rewrite <- app_assoc. rewrite P. rewrite app_assoc. now apply Permutation_app_tail.
Qed.
Lemma served_view : forall x e e', good client e -> good client e' -> served client exported e -> (is_call x = true -> ep_ids e < 1073741823) ->
  (forall r, x = XFrame (FRequest r) -> N.odd (rq_stream r) = negb client) -> view reg subscribable client x e e' -> served client exported e'.
Proof.
  intros x e e' G G' S Hc Hr V.
  assert (Same : forall e1 ev, ep_trace e1 = ep_trace e ++ ev -> pending e1 = pending e -> replies client ev = [] -> requests ev = [] -> served client exported e1).
  { intros e1 ev T P1 P2 P3. apply (served_step e e1 ev S T). rewrite P1, P2, P3. cbn. now rewrite app_nil_r. }
  assert (Out : forall l : list frame, (forall f, In f l -> match f with FError y => N.odd (er_stream y) = client | _ => True end) -> replies client (map HSent l) = []).
  { induction l as [|f l IH]; intros Hl; [reflexivity|]. cbn [map replies flat_map]. fold (replies client (map HSent l)). rewrite IH by (intros g Hg; apply Hl; now right).
    specialize (Hl f (or_introl eq_refl)). destruct f as [?|?|?|?|?|y]; try reflexivity. now rewrite Hl, Bool.eqb_reflx. }
  assert (Rq : forall l : list frame, requests (map HSent l) = []) by (induction l; auto).
  assert (Loc : forall o s, ep_obj o e = Some (OFlux s) -> N.odd (rq_stream (sf_req s)) = client).
  { intros o s Ho. destruct (g_loc client e G o _ _ Ho eq_refl) as (q & _ & Q). rewrite Q. apply nth_id_odd. }
  destruct V as [x e Hx|p input e|k p input b y e Hk|o y i e Ho Hl|o n s s' l e Ho Hs|o n sid a e Ho|o s e Ho|o sid a e Ho|o ev s e Ho|o sid a b e Ho
    |s t ev e Hev|r k e Hk|r ev e Hk Hev|r js e Hjs Hm|f e Hf Hg|f o y e Hf Hg Ho Hsk|i k r e e' Hj He|i o n e Hj|i o s e Hj Ho|i o e Hj Ho].
  - exact S.
  - eapply Same; reflexivity.
  - eapply Same; reflexivity.
  - eapply (Same _ (HSubscribed o :: _)); try reflexivity; destruct y; reflexivity.
  - apply (Same _ (HAsked o n :: map HSent l)); try reflexivity; [|apply (Rq l)]. apply (Out l).
    intros f Hf. unfold sf_request in Hs. destruct (sf_complete s); [injection Hs as _ <-; destruct Hf|].
    destruct (sf_first s); injection Hs as _ <-; destruct Hf as [<-|[]]; exact I.
  - eapply Same; reflexivity.
  - eapply (Same _ (HDropped o :: map HSent (sf_cancel s))); try reflexivity.
  - eapply Same; reflexivity.
  - apply (Same _ (HFed o ev :: map HSent (sf_input ev s))); try reflexivity; [|apply (Rq (sf_input ev s))]. apply (Out (sf_input ev s)).
    intros f Hf. unfold sf_input in Hf. destruct (sf_in s && negb (sf_first s)); [|destruct Hf]. destruct Hf as [<-|[]]. destruct ev; try exact I. exact (Loc o s Ho).
  - apply (Same _ []); try reflexivity. symmetry. apply app_nil_r.
  - eapply (Same _ (HRecv (FSetup s) :: ev)); try reflexivity; destruct Hev as [->| ->]; reflexivity.
  - eapply (served_step e _ [HRecv (FRequest r)] S); [reflexivity|]. change (pending (ep_emit ?l ?x)) with (pending x). rewrite pending_add. cbn [flat_map app requests].
    rewrite <- kind_code_of, Hk. cbn [app]. rewrite map_app. apply Permutation_refl.
  - eapply (Same _ (HRecv (FRequest r) :: ev)); try reflexivity; [destruct Hev as [->| ->]; reflexivity|].
    cbn [requests flat_map]. rewrite <- kind_code_of, Hk. destruct Hev as [->| ->]; reflexivity.
  - apply (Same _ [HRecv (FRequestN r)]); try reflexivity. change (pending (ep_emit ?l ?x)) with (pending x). rewrite pending_add.
    destruct Hjs as [->|(o & _ & ->)]; apply app_nil_r.
  - apply (Same _ [HRecv f; HRejected]); try reflexivity. destruct f; try discriminate Hf; reflexivity.
  - assert (Hc1 : forall ks, replies client (map (HCall o) ks) = []) by (induction ks; auto).
    assert (Hc2 : forall ks, requests (map (HCall o) ks) = []) by (induction ks; auto).
    apply (Same _ (HRecv f :: map (HCall o) (passed y (calls_of f)))).
    + destruct (closes f); reflexivity.
    + transitivity (pending (add_jobs (settles o y (calls_of f)) e)); [destruct (closes f); reflexivity|]. rewrite pending_add.
      replace (flat_map _ (settles o y (calls_of f))) with (@nil (kind * request)); [apply app_nil_r|].
      unfold settles. destruct y; [reflexivity| |reflexivity]. now induction (filter is_complete (calls_of f)).
    + exact (Hc1 (passed y (calls_of f))).
    + assert (X : requests (HRecv f :: map (HCall o) (passed y (calls_of f))) = requests [HRecv f]) by (etransitivity; [exact (requests_app [HRecv f] (map (HCall o) (passed y (calls_of f))))|rewrite Hc2; apply app_nil_r]).
      rewrite X. destruct f; try discriminate Hf; reflexivity.
  - pose proof (handle_request_eq _ _ _ _ _ _ He) as E. set (e1 := drop_job i e) in *.
    assert (P : N.odd (rq_stream r) = negb client) by (apply (g_jobs client e G k), (nth_error_In _ _ Hj)).
    apply (served_step e e' (dispatched reg k r (len (ep_objs e1))) S).
    + rewrite E. destruct (accepted reg k r && opens k); reflexivity.
    + rewrite (dispatched_reply exported client k r _ few P). replace (pending e') with (pending e1) by (rewrite E; destruct (accepted reg k r && opens k); reflexivity).
      replace (requests (dispatched reg k r (len (ep_objs e1)))) with (@nil (kind * request)).
      2:{ unfold dispatched. destruct (len (rq_metadata r) <? 8); [reflexivity|]. destruct (do_get k reg _); [destruct k|]; reflexivity. }
      rewrite app_nil_r. rewrite (Permutation_map _ (pending_drop i e _ Hj)). apply Permutation_refl.
  - pose proof (pending_drop i e _ Hj) as W. cbn [app] in W. eapply (served_step e _ [HDemand o n] S); [reflexivity|]. cbn. rewrite app_nil_r. apply Permutation_map. symmetry. exact W.
  - pose proof (pending_drop i e _ Hj) as W. cbn [app] in W. eapply (served_step e _ [HSettled o] S); [reflexivity|]. cbn. rewrite app_nil_r. apply Permutation_map. symmetry. exact W.
  - pose proof (pending_drop i e _ Hj) as W. cbn [app] in W. apply (served_step e _ [] S); [symmetry; apply app_nil_r|]. cbn. rewrite app_nil_r. apply Permutation_map. symmetry. exact W.
Qed.
End Props61.

(** Every request received is reacted to exactly once, as its frame demands, or
    waits for its goroutine; nothing else is reacted to. *)
Theorem C61_every_request_served_once :
  forall exported sb client l e, len exported < 2 ^ 32 -> history (reg_run exported) sb client l e ->
    Permutation (replies client (ep_trace e) ++ map (reaction exported) (pending e)) (map (reaction exported) (requests (ep_trace e))).
Proof.
  intros exported sb client l e L (H & C & P).
  destruct (run_inv (reg_run exported) sb client (served client exported)) with (l := l) (e := e) as [S _]; auto; [| |lia].
  - constructor.
  - exact (served_view exported sb client L).
Qed.
Theorem C61_idle_all_answered :
  forall exported sb client l e, len exported < 2 ^ 32 -> history (reg_run exported) sb client l e -> ep_jobs e = [] ->
    Permutation (replies client (ep_trace e)) (map (reaction exported) (requests (ep_trace e))).
Proof.
  intros exported sb client l e L H J. rewrite <- (C61_every_request_served_once exported sb client l e L H). unfold pending. rewrite J. cbn. now rewrite app_nil_r.
Qed.

(** The mono returned by a request-response handler ([source] and [code] are
    anything that does not itself send frames here) is subscribed by the
    responder: its outcome is answered by exactly one frame, and nothing is sent
    if it is cancelled or has no outcome. *)
Theorem C61_outcome_answered_once :
  forall C St (source : nat -> list (MonoModel.mact pay bytes frame C)) code (st : St) threads sched sid,
    (forall s, Forall MonoProps.silent (source s)) ->
    (forall k t st st' l, code k t st = Some (st', l) -> Forall MonoProps.silent l) ->
    Forall (Forall MonoProps.silent) threads ->
    let c := MonoModel.mrun source code (0 :: 0 :: sched)%nat (MonoModel.minit st ([MonoModel.ASubscribe (answer sid)] :: threads)) in
    MonoModel.mc_stack c = [] ->
    MonoProps.observed (MonoModel.mc_trace c) =
      match MonoFacts.calls 0 (MonoModel.mc_trace c) with
      | MonoModel.CSuccess p :: _ =>
          [FPayload {| pl_stream := sid; pl_metadata := py_meta p; pl_data := py_data p; pl_follows := false; pl_complete := true; pl_next := true |}]
      | MonoModel.CError x :: _ => [FError {| er_stream := sid; er_code := 0; er_data := x |}]
      | _ => []
      end.
Proof.
  intros C St source code st threads sched sid Hs Hc Ht c Hk.
  set (im := {| MonoObserve.mi_success := fun p => [answer_frame sid (inl p)]; MonoObserve.mi_error := fun x => [answer_frame sid (inr x)];
                MonoObserve.mi_finally := fun _ => [] |} : MonoObserve.mimage pay bytes frame).
  assert (Ob : MonoObserve.mobserves im (@answer C sid)).
  { constructor; cbn; [intros f E t v|intros f E t v|discriminate]; injection E as <-; exists []; split; [reflexivity|constructor|reflexivity|constructor]. }
  destruct (MonoObserve.mono_observed im (answer sid) Ob source code Hs Hc st threads sched Ht) as [(m & M1 & M2) O]. fold c in M1, O. specialize (O Hk).
  pose proof (MonoProps.C49_first_call_decides pay bytes frame C St source code st ([MonoModel.ASubscribe (answer sid)] :: threads) (0 :: 0 :: sched)%nat 0%nat m) as D.
  cbv zeta in D. fold c in D. specialize (D M1 Hk). rewrite M2 in D.
  assert (E : MonoObserve.mexpected im (MonoModel.mc_trace c) = map (answer_frame sid) (MonoFacts.outcomes 0 (MonoModel.mc_trace c))).
  { unfold MonoObserve.mexpected, MonoFacts.outcomes. generalize (MonoModel.mc_trace c) as t. induction t as [|x t IH]; [reflexivity|]. cbn [flat_map]. rewrite map_app, <- IH. f_equal.
    destruct x as [s k|s v|s x|s g|s g|i|i g|v w|o]; try reflexivity; destruct s; reflexivity. }
  rewrite O, E. destruct (MonoFacts.calls 0 (MonoModel.mc_trace c)) as [|k ks].
  - destruct D as [-> _]. reflexivity.
  - destruct D as [-> _]. destruct k; reflexivity.
Qed.

Definition req (ty sid : N) (md data : bytes) (n : N) : frame :=
  FRequest {| rq_type := ty; rq_stream := sid; rq_metadata := md; rq_data := data; rq_follows := false; rq_complete := true; rq_initial := n |}.
(** Two exports; a call of the second, a call of a third, too little metadata
    and a stream, served in another order. *)
Definition C61_exports : list reg_call := [CExport RR ([97], [98]) 10; CExport RS ([97], [98]) 11; CExport RR ([97], [99]) 12].
Definition C61_history : list hop :=
  [XFrame (req 4 1 [0; 0; 0; 1; 0; 0; 0; 0; 77] [5] 1); XFrame (req 4 3 [0; 0; 0; 2; 0; 0; 0; 0] [6] 1);
   XFrame (req 5 5 [1; 2; 3] [7] 1); XFrame (req 6 7 [0; 0; 0; 0; 0; 0; 0; 0] [8] 3); XJob 2; XJob 2; XJob 0; XJob 0].
Definition C61_end : ep := match hrun (reg_run C61_exports) (fun _ => true) false C61_history ep_init with Ok e => e | _ => ep_init end.
Definition C61_mono : MonoModel.mconf pay bytes frame Empty_set unit :=
  MonoModel.mrun (fun s => [MonoModel.ACall s (MonoModel.CError [4; 2]); MonoModel.ACall s MonoModel.CCancel]) (fun _ _ _ => None) (0 :: 0 :: repeat 0%nat 20)%nat
    (MonoModel.minit tt ([MonoModel.ASubscribe (answer 9)] :: [])).
Example C61_example :
  history (reg_run C61_exports) (fun _ => true) false C61_history C61_end /\ ep_jobs C61_end = [] /\
  replies false (ep_trace C61_end) =
    [Refused 5 invalid_metadata; Invoked RS 7 11 {| py_data := [8]; py_meta := [0; 0; 0; 0; 0; 0; 0; 0] |};
     Invoked RR 1 12 {| py_data := [5]; py_meta := [77] |}; Refused 3 not_found] /\
  MonoModel.mc_stack C61_mono = [] /\ MonoProps.observed (MonoModel.mc_trace C61_mono) = [error_frame_of 9 [4; 2]].
Proof.
  split; [split; [vm_compute; reflexivity|split; [vm_compute; reflexivity|repeat constructor]]|]. vm_compute. repeat split.
Qed.
Print Assumptions C61_every_request_served_once.
Print Assumptions C61_idle_all_answered.
Print Assumptions C61_outcome_answered_once.

(** ** C62.  The frame for a call on the sink of the handler's flux. *)
Definition stream_frame (sid : N) (k : FluxModel.fcall pay bytes) : list frame :=
  match k with
  | FluxModel.KNext p => [FPayload {| pl_stream := sid; pl_metadata := py_meta p; pl_data := py_data p; pl_follows := false; pl_complete := false; pl_next := true |}]
  | FluxModel.KComplete => [FPayload {| pl_stream := sid; pl_metadata := []; pl_data := []; pl_follows := false; pl_complete := true; pl_next := false |}]
  | FluxModel.KError x => [FError {| er_stream := sid; er_code := 0; er_data := x |}]
  | FluxModel.KCancel => []
  end.
(** The calls made before the first that ends the flux, and that one. *)
Fixpoint until_end (ks : list (FluxModel.fcall pay bytes)) : list (FluxModel.fcall pay bytes) :=
  match ks with
  | [] => []
  | FluxModel.KNext p :: ks' => FluxModel.KNext p :: until_end ks'
  | k :: _ => [k]
  end.
Lemma until_effective : forall ks, FluxFacts.effective ks = until_end ks.
Proof. induction ks as [|[] ks IH]; cbn; [reflexivity|now rewrite IH|reflexivity..]. Qed.
(** The responder of a stream or channel subscribes the handler's flux and
    requests from it ([threads], in any way, at any time, from the host or on
    WebAssembly): each value becomes one Payload in order, then the completion
    or error one frame, and nothing follows. *)
Theorem C62_events_become_frames :
  forall C St wasm (source : nat -> list (FluxModel.fact pay bytes frame C)) code (st : St) threads sched sid,
    (forall s, Forall FluxProps.silent (source s)) ->
    (forall k t st st' l, code k t st = Some (st', l) -> Forall FluxProps.silent l) ->
    Forall (Forall FluxProps.silent) threads ->
    let c := FluxModel.frun wasm source code (0 :: 0 :: sched)%nat (FluxModel.finit st ([FluxModel.FSubscribe (emit sid)] :: threads)) in
    FluxModel.fc_stack c = [] ->
    FluxProps.observed (FluxModel.fc_trace c) = flat_map (stream_frame sid) (until_end (FluxFacts.fcalls 0 (FluxModel.fc_trace c))).
Proof.
  intros C St wasm source code st threads sched sid Hs Hc Ht c Hk.
  set (im := {| FluxProps.im_next := fun p => [in_frame sid (InNext p)]; FluxProps.im_complete := [in_frame sid InComplete];
                FluxProps.im_error := fun x => [in_frame sid (InError x)]; FluxProps.im_finally := fun _ => [] |} : FluxProps.image pay bytes frame).
  assert (Ob : FluxProps.observes im (@emit C sid)).
  { constructor; cbn; [intros f E t v|intros f E t|intros f E t v|discriminate|discriminate]; injection E as <-; exists []; (split; [reflexivity|constructor]). }
  destruct (FluxProps.flux_observed im (emit sid) Ob wasm source code Hs Hc st threads sched Ht) as [(m & M1 & M2) O]. fold c in M1, O. specialize (O Hk).
  pose proof (FluxProps.C51_effective_calls_delivered pay bytes frame C St wasm source code st ([FluxModel.FSubscribe (emit sid)] :: threads) (0 :: 0 :: sched)%nat 0%nat m) as D.
  cbv zeta in D. fold c in D. specialize (D M1). rewrite M2, until_effective in D.
  set (g := fun o : FluxModel.fobs pay bytes => match o with FluxModel.ONext p => [in_frame sid (InNext p)] | FluxModel.OComplete => [in_frame sid InComplete]
                   | FluxModel.OError x => [in_frame sid (InError x)] | _ => [] end).
  assert (E : FluxProps.expected im (FluxModel.fc_trace c) = flat_map g (FluxFacts.delivered 0 (FluxModel.fc_trace c))).
  { unfold FluxProps.expected, FluxFacts.delivered. generalize (FluxModel.fc_trace c) as t. induction t as [|x t IH]; [reflexivity|]. cbn [flat_map]. rewrite flat_map_app, <- IH. f_equal.
    destruct x; try reflexivity; destruct s; reflexivity. }
  rewrite O, E, D. generalize (until_end (FluxFacts.fcalls 0 (FluxModel.fc_trace c))) as ks. induction ks as [|k ks IH]; [reflexivity|].
  cbn [flat_map]. rewrite flat_map_app, IH. f_equal. destruct k; reflexivity.
Qed.

Definition C62_conf (wasm : bool) : FluxModel.fconf pay bytes frame Empty_set unit :=
  FluxModel.frun wasm (fun s => [FluxModel.FCall s (FluxModel.KNext pay1); FluxModel.FCall s (FluxModel.KNext pay1); FluxModel.FCall s FluxModel.KComplete;
      FluxModel.FCall s (FluxModel.KNext pay1); FluxModel.FCall s (FluxModel.KError [1])]) (fun _ _ _ => None) (0 :: 0 :: repeat 0%nat 30)%nat
    (FluxModel.finit tt [[FluxModel.FSubscribe (emit 7)]]).
Example C62_example : forall wasm,
  FluxModel.fc_stack (C62_conf wasm) = [] /\
  FluxFacts.fcalls 0 (FluxModel.fc_trace (C62_conf wasm)) =
    [FluxModel.KNext pay1; FluxModel.KNext pay1; FluxModel.KComplete; FluxModel.KNext pay1; FluxModel.KError [1]] /\
  List.length (FluxProps.observed (FluxModel.fc_trace (C62_conf wasm))) = 3%nat.
Proof. intros []; vm_compute; repeat split. Qed.
Print Assumptions C62_events_become_frames.
