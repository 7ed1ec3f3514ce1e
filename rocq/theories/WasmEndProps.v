(** C78, C79: what the two WebAssembly ends do with requests. *)
From Verif Require Import Base BaseFacts FramesModel WasmModel InvokeModel InvokeProofs LookupModel HandlerModel HandlerFacts HandlerProps HandlerServeProps
  WasmEndModel WasmEndFacts.
From Coq Require Import Permutation.
Local Ltac Zify.zify_post_hook ::= Z.div_mod_to_equations.

Definition whole (l : list (kind * request)) : list (kind * request) := filter (fun kr => negb (rq_follows (snd kr))) l.
Lemma whole_app : forall a b, whole (a ++ b) = whole a ++ whole b.
Proof. intros. apply filter_app. Qed.
(** Steps other than receiving and serving requests. *)
Lemma view_quiet : forall reg sb c x e e', good c e -> view reg sb c x e e' -> serves x e = false ->
  (forall r k, x = XFrame (FRequest r) -> kind_of (rq_type r) <> Some k) ->
  exists ev, ep_trace e' = ep_trace e ++ ev /\ Permutation (pending e') (pending e) /\ replies c ev = [] /\ requests ev = [].
Proof.
  intros reg sb client x e e' G V Hs0 Hr0.
  assert (Same : forall e1 ev, ep_trace e1 = ep_trace e ++ ev -> pending e1 = pending e -> replies client ev = [] -> requests ev = [] ->
    exists ev, ep_trace e1 = ep_trace e ++ ev /\ Permutation (pending e1) (pending e) /\ replies client ev = [] /\ requests ev = []).
  { intros e1 ev T P1 P2 P3. exists ev. rewrite P1. repeat split; auto. }
  assert (Out : forall l : list frame, (forall f, In f l -> match f with FError y => N.odd (er_stream y) = client | _ => True end) -> replies client (map HSent l) = []).
  { induction l as [|f l IH]; intros Hl; [reflexivity|]. cbn [map replies flat_map]. fold (replies client (map HSent l)). rewrite IH by (intros g Hg; apply Hl; now right).
    specialize (Hl f (or_introl eq_refl)). destruct f as [?|?|?|?|?|y]; try reflexivity. now rewrite Hl, Bool.eqb_reflx. }
  assert (Rq : forall l : list frame, requests (map HSent l) = []) by (induction l; auto).
  assert (Loc : forall o s, ep_obj o e = Some (OFlux s) -> N.odd (rq_stream (sf_req s)) = client).
  { intros o s Ho. destruct (g_loc client e G o _ _ Ho eq_refl) as (q & _ & Q). rewrite Q. apply nth_id_odd. }
  destruct V as [x e Hx|p input e|k p input b y e Hk|o y i e Ho Hl|o n s s' l e Ho Hs|o n sid a e Ho|o s e Ho|o sid a e Ho|o ev s e Ho|o sid a b e Ho
    |s t ev e Hev|r k e Hk|r ev e Hk Hev|r js e Hjs Hm|f e Hf Hg|f o y e Hf Hg Ho Hsk|i k r e e' Hj He|i o n e Hj|i o s e Hj Ho|i o e Hj Ho].
  - apply (Same e []); auto. symmetry. apply app_nil_r.
  - eapply Same; reflexivity.
  - eapply Same; reflexivity.
  - eapply (Same _ (HSubscribed o :: _)); try reflexivity; destruct y; reflexivity.
  - apply (Same _ (HAsked o n :: map HSent l)); try reflexivity; [|apply (Rq l)]. apply (Out l).
    intros f Hf. unfold sf_request in Hs. destruct (sf_complete s); [injection Hs as _ <-; destruct Hf|].
    destruct (sf_first s); injection Hs as _ <-; destruct Hf as [<-|[]]; exact I.
  - eapply Same; reflexivity.
  - eapply (Same _ (HDropped o :: map HSent (sf_cancel s))); try reflexivity.
  - eapply Same; reflexivity.
  - apply (Same _ (HFed o ev :: map HSent (sf_input ev s))); try reflexivity; [|apply (Rq (sf_input ev s))]. apply (Out (sf_input ev s)).
    intros f Hf. unfold sf_input in Hf. destruct (sf_in s && negb (sf_first s)); [|destruct Hf]. destruct Hf as [<-|[]]. destruct ev; try exact I. exact (Loc o s Ho).
  - apply (Same _ []); try reflexivity. symmetry. apply app_nil_r.
  - eapply (Same _ (HRecv (FSetup s) :: ev)); try reflexivity; destruct Hev as [->| ->]; reflexivity.
  - now destruct (Hr0 r k eq_refl).
  - eapply (Same _ (HRecv (FRequest r) :: ev)); try reflexivity; [destruct Hev as [->| ->]; reflexivity|].
    cbn [requests flat_map]. rewrite <- kind_code_of, Hk. destruct Hev as [->| ->]; reflexivity.
  - apply (Same _ [HRecv (FRequestN r)]); try reflexivity. change (pending (ep_emit ?l ?x)) with (pending x). rewrite pending_add.
    destruct Hjs as [->|(o & _ & ->)]; apply app_nil_r.
  - apply (Same _ [HRecv f; HRejected]); try reflexivity. destruct f; try discriminate Hf; reflexivity.
  - assert (Hc1 : forall ks, replies client (map (HCall o) ks) = []) by (induction ks; auto).
    assert (Hc2 : forall ks, requests (map (HCall o) ks) = []) by (induction ks; auto).
    apply (Same _ (HRecv f :: map (HCall o) (passed y (calls_of f)))).
    + destruct (closes f); reflexivity.
    + transitivity (pending (add_jobs (settles o y (calls_of f)) e)); [destruct (closes f); reflexivity|]. rewrite pending_add.
      replace (flat_map _ (settles o y (calls_of f))) with (@nil (kind * request)); [apply app_nil_r|].
      unfold settles. destruct y; [reflexivity| |reflexivity]. now induction (filter is_complete (calls_of f)).
    + exact (Hc1 (passed y (calls_of f))).
    + assert (X : requests (HRecv f :: map (HCall o) (passed y (calls_of f))) = requests [HRecv f]) by (etransitivity; [exact (requests_app [HRecv f] (map (HCall o) (passed y (calls_of f))))|rewrite Hc2; apply app_nil_r]).
      rewrite X. destruct f; try discriminate Hf; reflexivity.
  - unfold serves in Hs0. rewrite Hj in Hs0. discriminate.
  - pose proof (pending_drop i e _ Hj) as W. cbn [app] in W. exists [HDemand o n]. repeat split; auto. symmetry. exact W.
  - pose proof (pending_drop i e _ Hj) as W. cbn [app] in W. exists [HSettled o]. repeat split; auto. symmetry. exact W.
  - pose proof (pending_drop i e _ Hj) as W. cbn [app] in W. exists []. rewrite app_nil_r. repeat split; auto. symmetry. exact W.
Qed.

(** ** C78: the host *)
(** What an execution of a host is, as in C61: at most 2^30 calls, and a guest
    that uses ids of its own for its requests. *)
Definition host_history (sb : N -> bool) (l : list (hop * (kind -> N -> option N))) (e : ep) : Prop :=
  host_run sb l ep_init = Ok e /\ calls (hops l) < 2 ^ 30 /\ proper_peer false (hops l).
(** The reaction a request is to get: the first four bytes of the metadata
    select an import; the handler gets the whole metadata. *)
Definition host_reaction (imported : kind -> N -> option N) (kr : kind * request) : reply :=
  let (k, r) := kr in
  if len (rq_metadata r) <? 8 then Refused (rq_stream r) [73; 110; 118; 97; 108; 105; 100; 32; 109; 101; 116; 97; 100; 97; 116; 97]
  else match imported k (unbe (firstn 4 (rq_metadata r))) with
       | None => Refused (rq_stream r) [110; 111; 116; 95; 102; 111; 117; 110; 100]
       | Some h => Invoked k (rq_stream r) h {| py_data := rq_data r; py_meta := rq_metadata r |}
       end.
Lemma host_answer_reply : forall imported k r o, N.odd (rq_stream r) = true ->
  replies false (host_answer imported k r o) = [host_reaction imported (k, r)] /\ requests (host_answer imported k r o) = [].
Proof.
  intros imported k r o P. unfold host_answer, host_reaction. rewrite takeN_firstn. change (N.to_nat 4) with 4%nat.
  destruct (len (rq_metadata r) <? 8); [cbn; now rewrite P|]. destruct (imported k _); [|cbn; now rewrite P]. destruct k; split; reflexivity.
Qed.
Definition host_served (imported : kind -> N -> option N) (e : ep) : Prop :=
  Permutation (replies false (ep_trace e) ++ map (host_reaction imported) (pending e)) (map (host_reaction imported) (whole (requests (ep_trace e)))).
Lemma host_served_history : forall sb imported l e, Forall (fun s => snd s = imported) l -> host_history sb l e -> host_served imported e.
Proof.
  intros sb imported l e F (H & C & P).
  apply (host_inv sb (fun i => i = imported) (host_served imported)) with (l := l); auto; [apply Permutation_refl| | | |lia].
  - intros x e0 e1 G G' S Hi Hs Hc Hr V. unfold host_served.
    destruct (match x with XFrame (FRequest r) => match kind_of (rq_type r) with Some k => Some (k, r) | None => None end | _ => None end) as [[k r]|] eqn:E.
    + destruct x as [| | | | | |[|r'| | | |]|]; try discriminate E. destruct (kind_of (rq_type r')) as [k'|] eqn:Ek; [|discriminate]. injection E as -> ->.
      inversion V as [| | | | | | | | | | |r0 k0 e2 Hk0| | | | | | | |]; subst; try congruence; try match goal with H : on_stream (FRequest _) = true |- _ => discriminate H end; try match goal with H : forall f, XFrame _ <> XFrame f |- _ => now destruct (H _ eq_refl) end.
      rewrite Ek in Hk0. injection Hk0 as <-. cbn [ep_emit ep_trace add_jobs].
      change (pending (ep_emit ?l ?x)) with (pending x). rewrite pending_add, requests_app, whole_app, replies_app, map_app, map_app. cbn [requests replies flat_map app].
      rewrite <- kind_code_of, Ek. cbn [ignored_op ignored] in Hi. rewrite Ek in Hi.
      assert (Wh : whole [(k, r)] = [(k, r)]) by (unfold whole; cbn [filter snd]; now rewrite Hi). cbn [app]. rewrite Wh, app_nil_r, app_assoc. now apply Permutation_app_tail.
    + destruct (view_quiet _ _ _ _ _ _ G V Hs) as (ev & T & Pn & R1 & R2).
      { intros r k -> Ek. rewrite Ek in E. discriminate. }
      rewrite T, replies_app, requests_app, whole_app, R1, R2. cbn [whole filter]. rewrite !app_nil_r. rewrite Pn. exact S.
  - intros f e0 G S Hf. unfold host_served. cbn [ep_emit ep_trace]. change (pending (ep_emit ?l ?x)) with (pending x).
    rewrite replies_app, requests_app, whole_app. replace (whole (requests [HRecv f])) with (@nil (kind * request)).
    2:{ destruct f as [|r| | | |]; try reflexivity. cbn [ignored] in Hf. cbn [requests flat_map app]. rewrite <- kind_code_of. destruct (kind_of (rq_type r)); [|reflexivity]. unfold whole. cbn [app filter snd]. now rewrite Hf. }
    cbn [replies flat_map app]. rewrite !app_nil_r. exact S.
  - intros i k r im e0 e1 -> G G' S Hj Ho E. rewrite (host_request_eq _ _ _ _ _ _ E). unfold host_served. set (o := len (ep_objs (drop_job i e0))).
    destruct (host_answer_reply imported k r o Ho) as [A1 A2].
    assert (Pn : pending (ep_emit (host_answer imported k r o) (if host_accepts imported k r then host_opens k r (drop_job i e0) else drop_job i e0)) = pending (drop_job i e0)).
    { change (pending (ep_emit ?l ?x)) with (pending x). destruct (host_accepts imported k r); [destruct k|]; reflexivity. }
    assert (T : ep_trace (ep_emit (host_answer imported k r o) (if host_accepts imported k r then host_opens k r (drop_job i e0) else drop_job i e0)) = ep_trace e0 ++ host_answer imported k r o).
    { cbn [ep_emit ep_trace]. f_equal. destruct (host_accepts imported k r); [destruct k|]; reflexivity. }
    rewrite Pn, T, replies_app, requests_app, whole_app, A1, A2. cbn [whole filter]. rewrite app_nil_r, <- S, <- app_assoc. apply Permutation_app_head.
    rewrite (Permutation_map _ (pending_drop i e0 _ Hj)). apply Permutation_refl.
Qed.
(** Every request that is not a fragment is reacted to exactly once, or waits for
    its goroutine; fragments and everything else get no reaction. *)
Theorem C78_every_whole_request_served_once :
  forall sb imported l e, host_history sb l e -> Forall (fun s => snd s = imported) l ->
    Permutation (replies false (ep_trace e) ++ map (host_reaction imported) (pending e)) (map (host_reaction imported) (whole (requests (ep_trace e)))).
Proof. intros sb imported l e H F. now apply (host_served_history sb imported l e). Qed.
Theorem C78_idle_all_answered :
  forall sb imported l e, host_history sb l e -> Forall (fun s => snd s = imported) l -> ep_jobs e = [] ->
    Permutation (replies false (ep_trace e)) (map (host_reaction imported) (whole (requests (ep_trace e)))).
Proof.
  intros sb imported l e H F J. rewrite <- (C78_every_whole_request_served_once sb imported l e H F). unfold pending. rewrite J. cbn. now rewrite app_nil_r.
Qed.
(** In particular a request that was split gets no answer. *)
Definition reply_stream (x : reply) : N := match x with Invoked _ sid _ _ => sid | Refused sid _ => sid end.
Theorem C78_fragments_get_no_answer :
  forall sb imported l e sid, host_history sb l e -> Forall (fun s => snd s = imported) l ->
    (forall k r, In (k, r) (requests (ep_trace e)) -> rq_stream r = sid -> rq_follows r = true) ->
    forall x, In x (replies false (ep_trace e)) -> reply_stream x <> sid.
Proof.
  intros sb imported l e sid H F Hf x Hx E. pose proof (C78_every_whole_request_served_once sb imported l e H F) as P.
  assert (Y : In x (map (host_reaction imported) (whole (requests (ep_trace e))))) by (eapply Permutation_in; [exact P|apply in_app_iff; now left]).
  apply in_map_iff in Y. destruct Y as ([k r] & <- & Y). apply filter_In in Y. destruct Y as [Y1 Y2]. cbn [snd] in Y2.
  assert (rq_stream r = sid).
  { rewrite <- E. unfold host_reaction. destruct (len (rq_metadata r) <? 8); [reflexivity|]. now destruct (imported k (unbe (firstn 4 (rq_metadata r)))). }
  rewrite (Hf k r Y1 H0) in Y2. discriminate.
Qed.
(** A call, a channel, a stream without handler and a split call; the goroutines
    run in another order. *)
Definition freq (ty sid : N) (md data : bytes) : frame :=
  FRequest {| rq_type := ty; rq_stream := sid; rq_metadata := md; rq_data := data; rq_follows := true; rq_complete := true; rq_initial := 1 |}.
Definition c78_imports (k : kind) (i : N) : option N := match k with RR => if i =? 1 then Some 21 else None | RC => Some 22 | _ => None end.
Definition c78_history : list (hop * (kind -> N -> option N)) := map (fun x => (x, c78_imports))
  [XFrame (req 4 1 [0; 0; 0; 1; 0; 0; 0; 0; 77] [5] 1); XFrame (freq 4 3 [0; 0; 0; 1; 0; 0; 0; 0] [6]);
   XFrame (req 7 5 [0; 0; 0; 1; 0; 0; 0; 0] [7] 2); XFrame (req 6 7 [0; 0; 0; 0; 0; 0; 0; 0] [8] 3); XJob 2; XJob 1; XJob 0].
Definition c78_end : ep := match host_run (fun _ => true) c78_history ep_init with Ok e => e | _ => ep_init end.
Example C78_example :
  host_history (fun _ => true) c78_history c78_end /\ Forall (fun s => snd s = c78_imports) c78_history /\ ep_jobs c78_end = [] /\
  replies false (ep_trace c78_end) =
    [Refused 7 not_found; Invoked RC 5 22 {| py_data := [7]; py_meta := [0; 0; 0; 1; 0; 0; 0; 0] |};
     Invoked RR 1 21 {| py_data := [5]; py_meta := [0; 0; 0; 1; 0; 0; 0; 0; 77] |}] /\
  forall k r, In (k, r) (requests (ep_trace c78_end)) -> rq_stream r = 3 -> rq_follows r = true.
Proof.
  split; [split; [vm_compute; reflexivity|split; [vm_compute; reflexivity|repeat constructor]]|]. split; [repeat constructor|]. split; [reflexivity|]. split; [reflexivity|].
  assert (E : exists l, requests (ep_trace c78_end) = l /\ Forall (fun kr => rq_stream (snd kr) = 3 -> rq_follows (snd kr) = true) l).
  { eexists. split; [vm_compute; reflexivity|]. repeat constructor; cbn; discriminate. }
  destruct E as (l & E & F). intros k r H. rewrite E in H. rewrite Forall_forall in F. exact (F _ H).
Qed.
Print Assumptions C78_every_whole_request_served_once.
Print Assumptions C78_idle_all_answered.
Print Assumptions C78_fragments_get_no_answer.

(** ** C79: the guest *)
Definition guest_history (reg : registry) (sb : N -> bool) (l : list hop) (e : ep) : Prop :=
  guest_run reg sb l ep_init = Ok e /\ calls l < 2 ^ 30 /\ proper_peer true l.
(** Whole requests are reacted to at once: the reactions are in the order of the
    requests and none is outstanding. *)
Theorem C79_served_in_order :
  forall exported sb l e, len exported < 2 ^ 32 -> guest_history (reg_run exported) sb l e ->
    replies true (ep_trace e) = map (reaction exported) (whole (requests (ep_trace e))).
Proof.
  intros exported sb l e L (H & C & Q).
  apply (guest_inv (reg_run exported) sb (fun e => pending e = [] /\ replies true (ep_trace e) = map (reaction exported) (whole (requests (ep_trace e))))) with (l := l); auto; [| | | | |lia].
  - intros x e0 e1 G G' [P S] Hp Hs Hc Hr V. destruct (view_quiet _ _ _ _ _ _ G V Hs) as (ev & T & Pn & R1 & R2).
    { intros r k -> Ek. cbn [guest_plain] in Hp. rewrite Ek in Hp. discriminate. }
    split; [rewrite P in Pn; now apply Permutation_sym, Permutation_nil in Pn|]. rewrite T, replies_app, requests_app, whole_app, R1, R2. cbn [whole filter]. now rewrite !app_nil_r.
  - intros f e0 G [P S] Hf. split; [exact P|]. cbn [ep_emit ep_trace]. rewrite replies_app, requests_app, whole_app.
    replace (whole (requests [HRecv f])) with (@nil (kind * request)).
    2:{ destruct f as [|r| | | |]; try reflexivity. cbn [ignored] in Hf. cbn [requests flat_map app]. rewrite <- kind_code_of. destruct (kind_of (rq_type r)); [|reflexivity]. unfold whole. cbn [app filter snd]. now rewrite Hf. }
    cbn [replies flat_map app]. now rewrite !app_nil_r.
  - intros k r e0 e1 G G' [P S] Hk Hf Ho E. pose proof (handle_request_eq _ _ _ _ _ _ E) as W. set (o := len (ep_objs (ep_emit [HRecv (FRequest r)] e0))) in *.
    assert (T : ep_trace e1 = ep_trace e0 ++ HRecv (FRequest r) :: dispatched (reg_run exported) k r o).
    { rewrite W. destruct (accepted (reg_run exported) k r && opens k); cbn [ep_emit ep_trace register ep_on ep_new]; now rewrite <- app_assoc. }
    split; [rewrite W; destruct (accepted (reg_run exported) k r && opens k); exact P|].
    rewrite T, replies_app, requests_app, whole_app, map_app, S. f_equal.
    change (replies true (HRecv (FRequest r) :: dispatched (reg_run exported) k r o)) with (replies true (dispatched (reg_run exported) k r o)).
    rewrite (dispatched_reply exported true k r o L Ho). cbn [requests flat_map]. rewrite <- kind_code_of, Hk.
    replace (flat_map _ (dispatched (reg_run exported) k r o)) with (@nil (kind * request)).
    + unfold whole. cbn [app filter snd]. now rewrite Hf.
    + unfold dispatched. destruct (len (rq_metadata r) <? 8); [reflexivity|]. destruct (do_get k (reg_run exported) _); [destruct k|]; reflexivity.
  - intros r e0 G [P S] Hg. split; [exact P|]. cbn [ep_emit ep_trace]. rewrite replies_app, requests_app, whole_app. cbn. now rewrite !app_nil_r.
  - intros r o e0 G [P S] Hg Hm. split; [exact P|]. cbn [ep_emit ep_trace]. rewrite replies_app, requests_app, whole_app. cbn. now rewrite !app_nil_r.
Qed.

(** Without Setup frames and fragments a guest behaves like an end made of
    [handler]: with the goroutines run in a suitable order, the same inputs lead to
    the same result. *)
Definition inputs (l : list hop) : list hop := filter (fun x => match x with XJob _ => false | _ => true end) l.
Definition wire_input (x : hop) : bool :=
  match x with XFrame (FSetup _) => false | XFrame (FRequest r) => negb (rq_follows r) | _ => true end.
Lemma guest_step_handler : forall reg sb x e, wire_input x = true -> exists l, inputs l = inputs [x] /\ hrun reg sb true l e = guest_step reg sb x e.
Proof.
  intros reg sb x e W.
  assert (One : guest_step reg sb x e = hstep reg sb true x e -> exists l, inputs l = inputs [x] /\ hrun reg sb true l e = guest_step reg sb x e).
  { intros ->. exists [x]. split; [reflexivity|]. cbn [hrun]. now destruct (hstep reg sb true x e). }
  assert (Two : forall f j e0, x = XFrame f -> handle_frame f (ep_emit [HRecv f] e) = Ok (ep_job j e0) -> run_job reg sb j e0 = guest_step reg sb x e ->
    exists l, inputs l = inputs [x] /\ hrun reg sb true l e = guest_step reg sb x e).
  { intros f j e0 -> H1 H2. exists [XFrame f; XJob (List.length (ep_jobs e0))]. split; [reflexivity|]. cbn [hrun hstep]. rewrite H1. cbn [bind].
    rewrite (nth_last_job j e0). pose proof (drop_last_job j e0) as D. unfold drop_job in D. rewrite D, H2. now destruct (guest_step reg sb (XFrame f) e). }
  destruct x as [k p input|o|o n|o|o ev|o|f|i]; try (now apply One).
  - cbn [guest_step] in *. destruct f as [s|r|r|y|p|y]; [discriminate W| | | | |]; try solve [apply One; reflexivity].
    + cbn [wire_input] in W. destruct (kind_of (rq_type r)) as [k|] eqn:Ek.
      * apply (Two (FRequest r) (JHandle k r) (ep_emit [HRecv (FRequest r)] e)); [reflexivity| |]; cbn [handle_frame guest_frame run_job]; rewrite Ek; [reflexivity|].
        destruct (rq_follows r); [discriminate|]. now rewrite guest_request_eq.
      * apply One. cbn [guest_frame hstep]. now rewrite Ek.
    + set (e0 := ep_emit [HRecv (FRequestN r)] e) in *. destruct (get_stream (rn_stream r) e0) as [o|] eqn:Eg.
      * destruct (ep_obj o e0) as [[q|s|k sid a b]|] eqn:Eo.
        -- apply One. cbn [guest_frame hstep handle_frame]. fold e0. now rewrite Eg, Eo.
        -- apply (Two (FRequestN r) (JDemand o (Z.of_N (rn_n r))) e0); [reflexivity| |]; cbn [handle_frame guest_frame run_job]; fold e0; now rewrite Eg, Eo.
        -- apply (Two (FRequestN r) (JDemand o (Z.of_N (rn_n r))) e0); [reflexivity| |]; cbn [handle_frame guest_frame run_job]; fold e0; now rewrite Eg, Eo.
        -- apply (Two (FRequestN r) (JDemand o (Z.of_N (rn_n r))) e0); [reflexivity| |]; cbn [handle_frame guest_frame run_job]; fold e0; now rewrite Eg, Eo.
      * apply One. cbn [guest_frame hstep handle_frame]. fold e0. now rewrite Eg.
  - cbn [guest_step]. destruct (nth_error (ep_jobs e) i) as [[k r|o n|o]|] eqn:E; try (exists []; split; reflexivity).
    exists [XJob i]. split; [reflexivity|]. cbn [hrun hstep]. rewrite E. cbn [run_job].
    now destruct (settle o _).
Qed.
Theorem C79_guest_is_a_handler :
  forall reg sb l e, Forall (fun x => wire_input x = true) l ->
    exists l', inputs l' = inputs l /\ hrun reg sb true l' e = guest_run reg sb l e.
Proof.
  intros reg sb. induction l as [|x l IH]; intros e F; [exists []; split; reflexivity|]. inversion F as [|? ? F1 F2]. subst.
  destruct (guest_step_handler reg sb x e F1) as (l1 & I1 & H1). cbn [guest_run].
  assert (App : forall a b, inputs (a ++ b) = inputs a ++ inputs b) by (intros; apply filter_app).
  change (inputs (x :: l)) with (inputs ([x] ++ l)). rewrite App.
  destruct (guest_step reg sb x e) as [e1|m|] eqn:E; cbn.
  - destruct (IH e1 F2) as (l2 & I2 & H2). exists (l1 ++ l2). rewrite App, I1, I2. split; [reflexivity|]. rewrite hrun_app, H1. exact H2.
  - exists (l1 ++ l). rewrite App, I1. split; [reflexivity|]. rewrite hrun_app, H1. reflexivity.
  - exists (l1 ++ l). rewrite App, I1. split; [reflexivity|]. rewrite hrun_app, H1. reflexivity.
Qed.
(** So what C59 to C63 say of histories holds for a guest. *)
Theorem C79_guest_histories :
  forall reg sb l e, Forall (fun x => wire_input x = true) l -> guest_history reg sb l e ->
    exists l', inputs l' = inputs l /\ history reg sb true l' e.
Proof.
  intros reg sb l e F (H & C & P). destruct (C79_guest_is_a_handler reg sb l ep_init F) as (l' & I & E). exists l'. split; [exact I|]. split; [now rewrite E|].
  assert (K : forall a, calls a = calls (inputs a)).
  { induction a as [|x a IHa]; [reflexivity|]. rewrite calls_cons, IHa. unfold inputs. cbn [filter]. destruct x; cbn [is_call]; rewrite ?calls_cons; cbn [is_call]; lia. }
  assert (R : forall a, request_ids a = request_ids (inputs a)).
  { induction a as [|x a IHa]; [reflexivity|]. unfold request_ids, inputs in *. cbn [flat_map filter]. destruct x; cbn [flat_map]; now rewrite <- ?IHa. }
  split; [now rewrite K, I, <- K|]. unfold proper_peer. now rewrite R, I, <- R.
Qed.
Definition c79_exports : list reg_call := [CExport RS ([97], [98]) 11; CExport RR ([97], [99]) 12].
Definition c79_ops : list hop :=
  [XFrame (req 6 2 [0; 0; 0; 0; 0; 0; 0; 0] [8] 3); XCall RR {| py_data := [1]; py_meta := [] |} false; XFrame (req 4 4 [0; 0; 0; 0; 0; 0; 0; 0; 9] [5] 1);
   XFrame (FRequestN {| rn_stream := 2; rn_n := 7 |}); XFrame (req 4 6 [] [] 1)].
Definition c79_end (l : list hop) : ep := match guest_run (reg_run c79_exports) (fun _ => true) l ep_init with Ok e => e | _ => ep_init end.
Example C79_example :
  (forall l, l = c79_ops \/ l = c79_ops ++ [XFrame (freq 4 8 [0; 0; 0; 0; 0; 0; 0; 0] [])] -> guest_history (reg_run c79_exports) (fun _ => true) l (c79_end l) /\
    replies true (ep_trace (c79_end l)) = [Invoked RS 2 11 {| py_data := [8]; py_meta := [0; 0; 0; 0; 0; 0; 0; 0] |};
      Invoked RR 4 12 {| py_data := [5]; py_meta := [9] |}; Refused 6 invalid_metadata]) /\
  Forall (fun x => wire_input x = true) c79_ops /\ In (HDemand 0 7) (ep_trace (c79_end c79_ops)).
Proof.
  split; [|split; [repeat constructor|vm_compute; tauto]].
  intros l [->| ->]; (split; [split; [vm_compute; reflexivity|split; [vm_compute; reflexivity|repeat constructor]]|reflexivity]).
Qed.
Print Assumptions C79_served_in_order.
Print Assumptions C79_guest_is_a_handler.
Print Assumptions C79_guest_histories.
