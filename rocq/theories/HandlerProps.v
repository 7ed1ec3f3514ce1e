(** C59-C63: remote calls and responders at one end of a connection. *)
From Verif Require Import Base BaseFacts FramesModel WasmModel InvokeModel LookupModel HandlerModel HandlerFacts.

(** ** C59.  What a trace says about a remote stream [o] with id [sid]. *)
(** Requests made before the completion was processed. *)
Fixpoint asks (o : N) (t : list hevent) : list Z :=
  match t with
  | [] => []
  | HAsked o' n :: t' => if o' =? o then n :: asks o t' else asks o t'
  | HSettled o' :: t' => if o' =? o then [] else asks o t'
  | _ :: t' => asks o t'
  end.
(** What the input produced. *)
Definition fed (o : N) (t : list hevent) : list inev :=
  flat_map (fun x => match x with HFed o' ev => if o' =? o then [ev] else [] | _ => [] end) t.
(** The same, from the first request on. *)
Fixpoint feds (o : N) (t : list hevent) : list inev :=
  match t with
  | [] => []
  | HAsked o' n :: t' => if o' =? o then fed o t' else feds o t'
  | HSettled o' :: t' => if o' =? o then [] else feds o t'
  | _ :: t' => feds o t'
  end.
Definition demand_frame (f : frame) : bool := match f with FRequest _ | FRequestN _ => true | _ => false end.
Definition input_frame (f : frame) : bool := match f with FPayload _ | FError _ => true | _ => false end.
(** Frames sent on a stream. *)
Definition sent (which : frame -> bool) (sid : N) (t : list hevent) : list frame :=
  flat_map (fun x => match x with HSent f => if which f && (frame_stream f =? sid) then [f] else [] | _ => [] end) t.
(** The frames that announce the demand [ns] for a call. *)
Definition announce (r : request) (ns : list Z) : list frame :=
  match ns with
  | [] => []
  | n :: ns' =>
      FRequest {| rq_type := rq_type r; rq_stream := rq_stream r; rq_metadata := rq_metadata r; rq_data := rq_data r;
                  rq_follows := rq_follows r; rq_complete := rq_complete r; rq_initial := Z.to_N (n mod 2 ^ 32) |}
      :: map (fun m => FRequestN {| rn_stream := rq_stream r; rn_n := Z.to_N (m mod 2 ^ 32) |}) ns'
  end.

Definition settled (o : N) (t : list hevent) : bool := existsb (fun x => match x with HSettled o' => o' =? o | _ => false end) t.
Definition isnil {A} (l : list A) : bool := match l with [] => true | _ => false end.
Lemma asks_app : forall o t u, asks o (t ++ u) = asks o t ++ (if settled o t then [] else asks o u).
Proof.
  intros o t u. induction t as [|x t IH]; [reflexivity|]. cbn [app asks settled existsb]. fold (settled o t).
  destruct x; cbn [orb]; auto; destruct (o0 =? o); cbn [app orb]; auto. now rewrite IH.
Qed.
Lemma fed_app : forall o t u, fed o (t ++ u) = fed o t ++ fed o u.
Proof. intros. apply flat_map_app. Qed.
Lemma feds_app : forall o t u, feds o (t ++ u) = feds o t ++ (if negb (isnil (asks o t)) then fed o u else if settled o t then [] else feds o u).
Proof.
  intros o t u. induction t as [|x t IH]; [reflexivity|]. cbn [app asks feds settled existsb]. fold (settled o t).
  destruct x; cbn [orb]; auto; destruct (o0 =? o); cbn [app orb isnil negb]; auto. apply fed_app.
Qed.
Lemma settled_app : forall o t u, settled o (t ++ u) = settled o t || settled o u.
Proof. intros. apply existsb_app. Qed.
Lemma sent_app : forall w sid t u, sent w sid (t ++ u) = sent w sid t ++ sent w sid u.
Proof. intros. apply flat_map_app. Qed.

(** Events that do not concern stream [o]; frames that do not concern its id. *)
Definition untouched (o : N) (ev : list hevent) : Prop :=
  Forall (fun x => match x with HAsked o' _ | HSettled o' | HFed o' _ => o' <> o | _ => True end) ev.
Definition unsent (sid : N) (ev : list hevent) : Prop :=
  Forall (fun x => match x with HSent f => demand_frame f || input_frame f = true -> frame_stream f <> sid | _ => True end) ev.
Lemma untouched_facts : forall o ev, untouched o ev -> asks o ev = [] /\ feds o ev = [] /\ fed o ev = [] /\ settled o ev = false.
Proof.
  intros o ev H. induction H as [|x ev Hx H IH]; [repeat split; reflexivity|].
  destruct IH as (A & B & C & D).
  destruct x; cbn [asks feds fed settled existsb flat_map]; fold (fed o ev) (settled o ev);
    repeat split; auto; try (apply N.eqb_neq in Hx; now rewrite Hx).
Qed.
Lemma unsent_facts : forall sid ev, unsent sid ev -> sent demand_frame sid ev = [] /\ sent input_frame sid ev = [].
Proof.
  intros sid ev H. induction H as [|x ev Hx H IH]; [repeat split; reflexivity|].
  destruct IH as (E & F). destruct x; cbn [sent flat_map]; fold (sent demand_frame sid ev) (sent input_frame sid ev); repeat split; auto.
  - destruct (demand_frame f) eqn:Ef; [|exact E]. specialize (Hx eq_refl). apply N.eqb_neq in Hx. now rewrite Hx.
  - destruct (input_frame f) eqn:Ef; [|exact F]. specialize (Hx (orb_true_r _)). apply N.eqb_neq in Hx. now rewrite Hx.
Qed.

Definition flux_at (o : N) (s : sflux) (t : list hevent) : Prop :=
  let sid := rq_stream (sf_req s) in
  sf_complete s = settled o t /\ sf_first s = isnil (asks o t) /\
  sent demand_frame sid t = announce (sf_req s) (asks o t) /\
  sent input_frame sid t = (if sf_in s then map (in_frame sid) (feds o t) else []).
Definition made_by (k : kind) (sid : N) (p : pay) (b : bool) (x : sobj) : Prop :=
  match x with
  | OMono r => k = RR /\ r = call_request k sid p
  | OFlux s => (k = RS \/ k = RC) /\ set_initial (sf_req s) 0 = set_initial (call_request k sid p) 0 /\ sf_in s = b
  | OReq _ _ _ _ => False
  end.
Definition ordered (client : bool) (t : list hevent) : Prop :=
  forall t1 f t2, t = t1 ++ HSent f :: t2 -> input_frame f = true -> N.odd (frame_stream f) = client -> sent demand_frame (frame_stream f) t1 <> [].
Record flux_ok (client : bool) (e : ep) : Prop := {
  fo_obj : forall o s, ep_obj o e = Some (OFlux s) -> flux_at o s (ep_trace e);
  fo_ids : forall f, In (HSent f) (ep_trace e) -> demand_frame f || input_frame f = true ->
    N.odd (frame_stream f) = negb client \/ exists p, p < ep_ids e /\ frame_stream f = nth_id client p;
  fo_new : forall o, len (ep_objs e) <= o -> untouched o (ep_trace e);
  fo_called : forall o k sid p b, In (HCalled o k sid p b) (ep_trace e) -> exists x, ep_obj o e = Some x /\ made_by k sid p b x;
  fo_order : ordered client (ep_trace e) }.

Lemma flux_at_quiet : forall o s t ev, flux_at o s t -> untouched o ev -> unsent (rq_stream (sf_req s)) ev -> flux_at o s (t ++ ev).
Proof.
  intros o s t ev (A & B & C & D) U V. destruct (untouched_facts o ev U) as (U1 & U2 & U3 & U4). destruct (unsent_facts _ ev V) as (V1 & V2).
  unfold flux_at. rewrite settled_app, asks_app, feds_app, !sent_app, U1, U2, U3, U4, V1, V2.
  assert (E : (if settled o t then [] else []) = @nil Z) by (destruct (settled o t); reflexivity).
  assert (E2 : (if negb (isnil (asks o t)) then [] else if settled o t then [] else []) = @nil inev)
    by (destruct (settled o t), (isnil (asks o t)); reflexivity).
  rewrite E, E2, !app_nil_r, orb_false_r. auto.
Qed.
Lemma split_app : forall A (t ev t1 t2 : list A) x, t ++ ev = t1 ++ x :: t2 ->
  (exists t3, t = t1 ++ x :: t3) \/ (exists u1, t1 = t ++ u1 /\ ev = u1 ++ x :: t2).
Proof.
  intros A t ev. induction t as [|y t IH]; intros t1 t2 x H; [right; exists t1; auto|].
  destruct t1 as [|z t1]; cbn in H.
  - injection H as -> H. left. now exists t.
  - injection H as -> H. destruct (IH _ _ _ H) as [(t3 & ->)|(u1 & -> & ->)]; [left; now exists t3|right; now exists u1].
Qed.
Lemma flux_ok_step : forall client e e' ev, flux_ok client e -> ep_trace e' = ep_trace e ++ ev -> ep_ids e <= ep_ids e' ->
  len (ep_objs e) <= len (ep_objs e') ->
  (forall o s', ep_obj o e' = Some (OFlux s') ->
     (ep_obj o e = Some (OFlux s') /\ untouched o ev /\ unsent (rq_stream (sf_req s')) ev) \/ flux_at o s' (ep_trace e ++ ev)) ->
  (forall f, In (HSent f) ev -> demand_frame f || input_frame f = true ->
     N.odd (frame_stream f) = negb client \/ exists p, p < ep_ids e' /\ frame_stream f = nth_id client p) ->
  (forall o, len (ep_objs e') <= o -> untouched o ev) ->
  (forall o x k sid p b, ep_obj o e = Some x -> made_by k sid p b x -> exists x', ep_obj o e' = Some x' /\ made_by k sid p b x') ->
  (forall o k sid p b, In (HCalled o k sid p b) ev -> exists x, ep_obj o e' = Some x /\ made_by k sid p b x) ->
  (forall u1 f u2, ev = u1 ++ HSent f :: u2 -> input_frame f = true -> N.odd (frame_stream f) = client -> sent demand_frame (frame_stream f) (ep_trace e) <> []) ->
  flux_ok client e'.
Proof.
  intros client e e' ev [A B C D E] Ht Hi Hl H1 H2 H3 H4 H5 H6. constructor; rewrite ?Ht.
  - intros o s' Ho. destruct (H1 o s' Ho) as [(X & U & V)|X]; [|exact X]. apply flux_at_quiet; auto.
  - intros f Hf Hk. apply in_app_iff in Hf. destruct Hf as [Hf|Hf]; [|auto]. destruct (B f Hf Hk) as [X|(p & P1 & P2)]; [now left|right].
    exists p. split; [lia|exact P2].
  - intros o Ho. apply Forall_app. split; [apply C; lia|apply H3; exact Ho].
  - intros o k sid p b Hc. apply in_app_iff in Hc. destruct Hc as [Hc|Hc]; [|auto]. destruct (D o k sid p b Hc) as (x & X1 & X2). eauto.
  - intros t1 f t2 Es Hf Ho. destruct (split_app _ _ _ _ _ _ Es) as [(t3 & X)|(u1 & -> & X)]; [eapply E; eauto|].
    rewrite sent_app. intros Z. apply app_eq_nil in Z. destruct Z as [Z _]. now apply (H6 u1 f t2 X).
Qed.

(** Steps that leave the remote streams alone. *)
Definition inert (client : bool) (e : ep) (ev : list hevent) : Prop :=
  Forall (fun x => match x with
    | HAsked _ _ | HSettled _ | HFed _ _ | HCalled _ _ _ _ _ => False
    | HSent f => demand_frame f || input_frame f = true -> N.odd (frame_stream f) = negb client
    | _ => True end) ev.
Lemma flux_stream_local : forall client e o s, good client e -> ep_obj o e = Some (OFlux s) -> N.odd (rq_stream (sf_req s)) = client.
Proof. intros client e o s G H. destruct (g_loc client e G o _ _ H eq_refl) as (p & _ & ->). apply nth_id_odd. Qed.
Lemma flux_ok_inert : forall client e e' ev, good client e -> flux_ok client e -> ep_trace e' = ep_trace e ++ ev -> ep_ids e' = ep_ids e ->
  len (ep_objs e) <= len (ep_objs e') ->
  (forall o s', ep_obj o e' = Some (OFlux s') -> ep_obj o e = Some (OFlux s')) ->
  (forall o x, ep_obj o e = Some x -> (forall k sid a b, x <> OReq k sid a b) -> ep_obj o e' = Some x) ->
  inert client e ev -> flux_ok client e'.
Proof.
  intros client e e' ev G F Ht Hi Hl H1 H2 Hn.
  assert (U : forall o, untouched o ev).
  { intros o. unfold untouched. apply Forall_impl with (2 := Hn). intros []; try tauto. }
  assert (X : forall f, In (HSent f) ev -> demand_frame f || input_frame f = true -> N.odd (frame_stream f) = negb client).
  { intros f Hf. unfold inert in Hn. rewrite Forall_forall in Hn. exact (Hn _ Hf). }
  apply (flux_ok_step client e e' ev); auto; try lia.
  - intros o s' Ho. left. specialize (H1 o s' Ho). split; [exact H1|]. split; [apply U|]. unfold unsent. rewrite Forall_forall. intros y Hy.
    destruct y; auto. intros Hk Hs. specialize (X f Hy Hk). rewrite Hs, (flux_stream_local client e o s' G H1) in X. now destruct client.
  - intros o x k sid p b Ho Hm. exists x. split; [|exact Hm]. apply H2; [exact Ho|]. intros k' sid' a' b' ->. exact Hm.
  - intros o k sid p b Hc. unfold inert in Hn. rewrite Forall_forall in Hn. now specialize (Hn _ Hc).
  - intros u1 f u2 -> Hf Ho. exfalso. assert (Y : In (HSent f) (u1 ++ HSent f :: u2)) by (apply in_app_iff; right; now left).
    specialize (X f Y). rewrite Hf, orb_true_r, Ho in X. specialize (X eq_refl). now destruct client.
Qed.
Lemma set_initial_idem : forall r a b, set_initial (set_initial r a) b = set_initial r b.
Proof. reflexivity. Qed.
Lemma announce_set : forall r n ns, announce (set_initial r n) ns = announce r ns.
Proof. intros r n [|m ns]; reflexivity. Qed.
Lemma announce_first : forall r n, FRequest (set_initial r (to_u32 n)) = FRequest {| rq_type := rq_type r; rq_stream := rq_stream r; rq_metadata := rq_metadata r; rq_data := rq_data r;
                  rq_follows := rq_follows r; rq_complete := rq_complete r; rq_initial := Z.to_N (n mod 2 ^ 32) |}.
Proof. reflexivity. Qed.

Section Props.
Variable reg : registry.
Variable subscribable : N -> bool.
Variable client : bool.

Lemma flux_ok_init : flux_ok client ep_init.
Proof.
  constructor.
  - intros o s H. unfold ep_obj in H. cbn in H. destruct (N.to_nat o); discriminate.
  - intros f [].
  - intros o _. constructor.
  - intros o k sid p b [].
  - intros [|? t1] f t2 H; discriminate.
Qed.
Lemma same_stream : forall n s s' l, sf_request n s = (s', l) -> rq_stream (sf_req s') = rq_stream (sf_req s).
Proof. intros n s s' l H. unfold sf_request in H. destruct (sf_complete s); [now injection H as <- _|]. destruct (sf_first s); now injection H as <- _. Qed.
Lemma flux_ok_view : forall x e e', good client e -> good client e' -> flux_ok client e -> (is_call x = true -> ep_ids e < 1073741823) ->
  (forall r, x = XFrame (FRequest r) -> N.odd (rq_stream r) = negb client) -> view reg subscribable client x e e' -> flux_ok client e'.
Proof.
  intros x e e' G G' F Hc Hr V.
  assert (Inert : forall e1 ev, ep_trace e1 = ep_trace e ++ ev -> ep_ids e1 = ep_ids e -> ep_objs e1 = ep_objs e -> inert client e ev -> flux_ok client e1).
  { intros e1 ev T I O N. assert (Ob : forall o, ep_obj o e1 = ep_obj o e) by (intros o; unfold ep_obj; now rewrite O).
    apply (flux_ok_inert client e e1 ev); auto; [rewrite O; lia| |]; intros o s'; rewrite Ob; auto. }
  destruct V as [x e Hx|p input e|k p input b y e Hk|o y i e Ho Hl|o n s s' l e Ho Hs|o n sid a e Ho|o s e Ho|o sid a e Ho|o ev s e Ho|o sid a b e Ho
    |s t ev e Hev|r k e Hk|r ev e Hk Hev|r js e Hjs Hm|f e Hf Hg|f o y e Hf Hg Ho Hsk|i k r e e' Hj He|i o n e Hj|i o s e Hj Ho|i o e Hj Ho].
  - exact F.
  - (* fire and forget *)
    apply (flux_ok_step client e _ [HSent (FRequest (call_request FNF (nth_id client (ep_ids e)) p))]); auto; try reflexivity; cbn [ep_emit with_ids ep_ids ep_objs]; try lia.
    + intros o s' Ho. left. change (ep_obj o e = Some (OFlux s')) in Ho. split; [exact Ho|]. split; [repeat constructor|]. constructor; [|constructor].
      intros _ E. destruct (g_loc client e G o _ _ Ho eq_refl) as (q & Q1 & Q2). rewrite Q2 in E. apply nth_id_inj in E. cbn in E. lia.
    + intros f [E|[]] _. injection E as <-. right. exists (ep_ids e). split; [lia|reflexivity].
    + intros o _. repeat constructor.
    + intros o x k sid q b Ho Hm. now exists x.
    + intros o k sid q b [E|[]]. discriminate.
    + intros [|u u1] f u2 E Hf; [injection E as <- _; discriminate Hf|]. destruct u1; discriminate.
  - (* calls *)
    apply (flux_ok_step client e _ [HCalled (len (ep_objs e)) k (nth_id client (ep_ids e)) p b]); auto; try reflexivity; cbn [ep_emit ep_new with_ids ep_ids ep_objs ep_trace]; try lia.
    + unfold len. rewrite app_length. cbn [List.length]. lia.
    + intros o s' Ho. change (ep_obj o (ep_new y (with_ids (ep_ids e + 1) e)) = Some (OFlux s')) in Ho. apply obj_new in Ho. destruct Ho as [Ho|[-> <-]].
      * left. change (ep_obj o e = Some (OFlux s')) in Ho. split; [exact Ho|]. split; repeat constructor.
      * right. change (len (ep_objs (with_ids (ep_ids e + 1) e))) with (len (ep_objs e)).
        destruct (untouched_facts _ _ (fo_new client e F (len (ep_objs e)) (N.le_refl _))) as (U1 & U2 & U3 & U4).
        assert (Z : forall w, (forall f, w f = true -> demand_frame f || input_frame f = true) -> sent w (nth_id client (ep_ids e)) (ep_trace e) = []).
        { intros w Hw. destruct (sent w (nth_id client (ep_ids e)) (ep_trace e)) as [|f fs] eqn:Ef; [reflexivity|]. exfalso.
          assert (Hin : In f (sent w (nth_id client (ep_ids e)) (ep_trace e))) by (rewrite Ef; now left).
          unfold sent in Hin. apply in_flat_map in Hin. destruct Hin as (ev & Hev & Hin). destruct ev; try destruct Hin.
          destruct (w f0) eqn:Ew; [|destruct Hin]. destruct (frame_stream f0 =? nth_id client (ep_ids e)) eqn:En; [|destruct Hin].
          apply N.eqb_eq in En. destruct (fo_ids client e F f0 Hev (Hw _ Ew)) as [Q|(q & Q1 & Q2)].
          - rewrite En, nth_id_odd in Q. now destruct client.
          - rewrite En in Q2. apply nth_id_inj in Q2. lia. }
        assert (Y : sf_complete s' = false /\ sf_first s' = true /\ rq_stream (sf_req s') = nth_id client (ep_ids e)).
        { destruct Hk as [(_ & _ & E)|[(_ & _ & E)|(_ & _ & E)]]; [discriminate|injection E as ->; auto|injection E as ->; auto]. }
        destruct Y as (Y1 & Y2 & Y3). unfold flux_at. rewrite Y1, Y2, Y3, settled_app, asks_app, feds_app, !sent_app, U1, U2, U4.
        rewrite !Z by (intros f Hf; rewrite Hf, ?orb_true_r; reflexivity). cbn. destruct (sf_in s'); auto.
    + intros f [E|[]]. discriminate.
    + intros o _. repeat constructor.
    + intros o x k' sid q b' Ho Hm. exists x. split; [|exact Hm]. now apply (obj_new_old o y (with_ids (ep_ids e + 1) e)).
    + intros o k' sid q b' [E|[]]. injection E as <- <- <- <- <-. exists y. split; [apply (obj_new_new y (with_ids (ep_ids e + 1) e))|].
      destruct Hk as [(-> & -> & ->)|[(-> & -> & ->)|(-> & -> & ->)]]; cbn; auto.
    + intros [|u u1] f u2 E; [discriminate|]. destruct u1; discriminate.
  - (* subscribe *)
    set (ev := HSubscribed o :: match y with OMono r => [HSent (FRequest r)] | _ => [] end).
    assert (Hev : forall f, In (HSent f) ev -> exists r, y = OMono r /\ f = FRequest r).
    { intros f [E|Hf]; [discriminate|]. destruct y; [|destruct Hf..]. destruct Hf as [E|[]]. injection E as <-. eauto. }
    assert (Hu : forall o', untouched o' ev) by (intros o'; constructor; [exact I|]; destruct y; repeat constructor).
    apply (flux_ok_step client e _ ev); auto; try reflexivity; cbn [ep_emit ep_ids ep_objs register ep_on]; try lia.
    + intros o' s' Ho'. change (ep_obj o' e = Some (OFlux s')) in Ho'. left. split; [exact Ho'|]. split; [apply Hu|].
      unfold unsent. rewrite Forall_forall. intros z Hz. destruct z; auto. intros _ E. destruct (Hev f Hz) as (r & -> & ->). cbn in E.
      injection Hl as <-. assert (o = o') by (apply (g_inj client e G o o' _ _ (rq_stream r) Ho Ho'); [reflexivity|cbn; congruence]). subst o'. congruence.
    + intros f Hf _. right. destruct (Hev f Hf) as (r & -> & ->). destruct (g_loc client e G o _ _ Ho eq_refl) as (q & Q1 & Q2). exists q. auto.
    + intros o' x k sid q b Ho' Hm. now exists x.
    + intros o' k sid q b [E|Hf]; [discriminate|]. destruct y; [|destruct Hf..]. destruct Hf as [E|[]]. discriminate.
    + intros u1 f u2 E Hf. destruct (Hev f) as (r & _ & ->); [rewrite E; apply in_app_iff; right; now left|discriminate].
  - (* a request *)
    destruct (fo_obj client e F o s Ho) as (A & B & C & D). pose proof (same_stream n s s' l Hs) as Es.
    assert (Hl : forall f, In f l -> demand_frame f = true /\ input_frame f = false /\ frame_stream f = rq_stream (sf_req s)).
    { unfold sf_request in Hs. destruct (sf_complete s); [injection Hs as _ <-; intros f []|].
      destruct (sf_first s); injection Hs as _ <-; intros f [<-|[]]; auto. }
    assert (Hev : forall f, In (HSent f) (HAsked o n :: map HSent l) -> demand_frame f = true /\ input_frame f = false /\ frame_stream f = rq_stream (sf_req s)).
    { intros f [E|Hf]; [discriminate|]. apply in_map_iff in Hf. destruct Hf as (f' & E & Hf). injection E as ->. auto. }
    assert (Hu : forall o', o <> o' -> untouched o' (HAsked o n :: map HSent l)).
    { intros o' Hne. constructor; [exact Hne|]. clear. induction l; constructor; auto. }
    apply (flux_ok_step client e _ (HAsked o n :: map HSent l)); auto; try reflexivity; cbn [ep_emit ep_ids ep_objs ep_set ep_trace]; try lia.
    + unfold len. rewrite LookupProofs.upd_length. lia.
    + intros o' s1 Ho'. change (ep_obj o' (ep_set o (OFlux s') e) = Some (OFlux s1)) in Ho'. destruct (N.eq_dec o o') as [<-|Ne].
      * right. rewrite (obj_set_same o _ e _ Ho) in Ho'. injection Ho' as <-. unfold flux_at. rewrite Es, settled_app, asks_app, feds_app, !sent_app.
        assert (X1 : settled o (HAsked o n :: map HSent l) = false) by (cbn; clear; induction l; auto).
        assert (X2 : asks o (HAsked o n :: map HSent l) = [n]) by (cbn; rewrite N.eqb_refl; f_equal; clear; induction l; auto).
        assert (X3 : fed o (map HSent l) = []) by (clear; induction l; auto).
        assert (X4 : fed o (HAsked o n :: map HSent l) = []) by exact X3.
        assert (X5 : feds o (HAsked o n :: map HSent l) = []) by (cbn; rewrite N.eqb_refl; exact X3).
        assert (X6 : sent input_frame (rq_stream (sf_req s)) (HAsked o n :: map HSent l) = []).
        { cbn. clear -Hl. induction l as [|f l IH]; [reflexivity|]. cbn. destruct (Hl f (or_introl eq_refl)) as (_ & -> & _). cbn. apply IH. intros g Hg. apply Hl. now right. }
        assert (X7 : sent demand_frame (rq_stream (sf_req s)) (HAsked o n :: map HSent l) = l).
        { cbn. clear -Hl. induction l as [|f l IH]; [reflexivity|]. cbn. destruct (Hl f (or_introl eq_refl)) as (-> & _ & ->). rewrite N.eqb_refl. cbn. f_equal. apply IH.
          intros g Hg. apply Hl. now right. }
        rewrite X1, X2, X4, X5, X6, X7, orb_false_r, C, D, app_nil_r.
        unfold sf_request in Hs. rewrite A, B in Hs. destruct (settled o (ep_trace e)).
        -- injection Hs as <- <-. rewrite !app_nil_r. rewrite A. destruct (negb (isnil (asks o (ep_trace e)))); rewrite ?app_nil_r; auto.
        -- destruct (asks o (ep_trace e)) as [|m ms] eqn:Ea; cbn [isnil] in Hs; injection Hs as <- <-.
           ++ cbn [sf_complete sf_first sf_req sf_in isnil app negb]. rewrite announce_set, app_nil_r. repeat split; auto.
           ++ cbn [app isnil negb announce]. rewrite A, B. cbn [isnil]. rewrite map_app, app_nil_r. repeat split; auto.
      * left. rewrite obj_set_other in Ho' by exact Ne. split; [exact Ho'|]. split; [now apply Hu|].
        unfold unsent. rewrite Forall_forall. intros z Hz. destruct z; auto. intros _ E. destruct (Hev f Hz) as (_ & _ & E'). rewrite E' in E.
        apply Ne. apply (g_inj client e G o o' _ _ (rq_stream (sf_req s)) Ho Ho'); [reflexivity|cbn; congruence].
    + intros f Hf _. right. destruct (Hev f Hf) as (_ & _ & ->). destruct (g_loc client e G o _ _ Ho eq_refl) as (q & Q1 & Q2). exists q. auto.
    + intros o' Hlen. apply Hu. intros <-. apply obj_lt in Ho. unfold len in *. rewrite LookupProofs.upd_length in Hlen. lia.
    + intros o' x k sid q b Ho' Hm. destruct (N.eq_dec o o') as [<-|Ne].
      * exists (OFlux s'). split; [now apply (obj_set_same o _ e (OFlux s))|]. rewrite Ho in Ho'. injection Ho' as <-. cbn [made_by] in *.
        destruct Hm as (M1 & M2 & M3). split; [exact M1|]. unfold sf_request in Hs. destruct (sf_complete s); [injection Hs as <- _; auto|].
        destruct (sf_first s); injection Hs as <- _; auto.
      * exists x. split; [|exact Hm]. change (ep_obj o' (ep_set o (OFlux s') e) = Some x). now rewrite obj_set_other.
    + intros o' k sid q b [E|Hf]; [discriminate|]. apply in_map_iff in Hf. destruct Hf as (f' & E & _). discriminate.
    + intros u1 f u2 E Hf. destruct (Hev f) as (_ & X & _); [rewrite E; apply in_app_iff; right; now left|congruence].
  - eapply Inert; try reflexivity. constructor; [|constructor]. intros _. apply (g_peer client e G o RC sid a true Ho).
  - eapply Inert; try reflexivity. constructor; [exact I|]. constructor; [|constructor]. discriminate.
  - eapply Inert; try reflexivity. constructor; [|constructor]. discriminate.
  - (* the input *)
    destruct (fo_obj client e F o s Ho) as (A & B & C & D).
    set (l := sf_input ev s). assert (Hl : l = if sf_in s && negb (isnil (asks o (ep_trace e))) then [in_frame (rq_stream (sf_req s)) ev] else []).
    { unfold l, sf_input. now rewrite B. }
    assert (Hin : demand_frame (in_frame (rq_stream (sf_req s)) ev) = false /\ input_frame (in_frame (rq_stream (sf_req s)) ev) = true /\
      frame_stream (in_frame (rq_stream (sf_req s)) ev) = rq_stream (sf_req s)) by (destruct ev; auto).
    destruct Hin as (I1 & I2 & I3).
    assert (Hev : forall f, In (HSent f) (HFed o ev :: map HSent l) -> f = in_frame (rq_stream (sf_req s)) ev /\ asks o (ep_trace e) <> []).
    { intros f [E|Hf]; [discriminate|]. apply in_map_iff in Hf. destruct Hf as (f' & E & Hf). injection E as ->. rewrite Hl in Hf.
      destruct (sf_in s); [|destruct Hf]. destruct (asks o (ep_trace e)); [destruct Hf|]. destruct Hf as [<-|[]]. split; [reflexivity|discriminate]. }
    assert (Hu : forall o', o <> o' -> untouched o' (HFed o ev :: map HSent l)).
    { intros o' Hne. constructor; [exact Hne|]. clear. induction l; constructor; auto. }
    apply (flux_ok_step client e _ (HFed o ev :: map HSent l)); auto; try reflexivity; cbn [ep_emit ep_ids ep_objs ep_trace]; try lia.
    + intros o' s1 Ho'. change (ep_obj o' e = Some (OFlux s1)) in Ho'. destruct (N.eq_dec o o') as [<-|Ne].
      * right. rewrite Ho in Ho'. injection Ho' as <-. unfold flux_at. rewrite settled_app, asks_app, feds_app, !sent_app.
        assert (X1 : settled o (HFed o ev :: map HSent l) = false) by (cbn; clear; induction l; auto).
        assert (X2 : asks o (HFed o ev :: map HSent l) = []) by (cbn; clear; induction l; auto).
        assert (X3 : fed o (map HSent l) = []) by (clear; induction l; auto).
        assert (X4 : fed o (HFed o ev :: map HSent l) = [ev]). { cbn. fold (fed o (map HSent l)). now rewrite N.eqb_refl, X3. }
        assert (X5 : feds o (HFed o ev :: map HSent l) = []) by (cbn; clear; induction l; auto).
        rewrite X1, X2, X4, X5, orb_false_r, C, D.
        assert (X6 : sent input_frame (rq_stream (sf_req s)) (HFed o ev :: map HSent l) = l).
        { rewrite Hl. destruct (sf_in s && negb (isnil (asks o (ep_trace e)))); [|reflexivity]. cbn. now rewrite I2, I3, N.eqb_refl. }
        assert (X7 : sent demand_frame (rq_stream (sf_req s)) (HFed o ev :: map HSent l) = []).
        { rewrite Hl. destruct (sf_in s && negb (isnil (asks o (ep_trace e)))); [|reflexivity]. cbn. now rewrite I1. }
        rewrite X6, X7, Hl. assert (E0 : (if settled o (ep_trace e) then [] else []) = @nil Z) by (now destruct (settled o (ep_trace e))). rewrite E0, !app_nil_r.
        repeat split; auto. destruct (sf_in s); cbn [andb]; [|reflexivity]. rewrite map_app. f_equal.
        destruct (isnil (asks o (ep_trace e))); cbn [negb]; [now destruct (settled o (ep_trace e))|reflexivity].
      * left. split; [exact Ho'|]. split; [now apply Hu|].
        unfold unsent. rewrite Forall_forall. intros z Hz. destruct z; auto. intros _ E. destruct (Hev f Hz) as (E' & _). rewrite E', I3 in E.
        apply Ne. apply (g_inj client e G o o' _ _ (rq_stream (sf_req s)) Ho Ho'); [reflexivity|cbn; congruence].
    + intros f Hf _. right. destruct (Hev f Hf) as (-> & _). destruct (g_loc client e G o _ _ Ho eq_refl) as (q & Q1 & Q2). exists q. split; [auto|]. now rewrite I3.
    + intros o' Hlen. apply Hu. intros <-. apply obj_lt in Ho. lia.
    + intros o' x k sid q b Ho' Hm. now exists x.
    + intros o' k sid q b [E|Hf]; [discriminate|]. apply in_map_iff in Hf. destruct Hf as (f' & E & _). discriminate.
    + intros u1 f u2 E Hf _. destruct (Hev f) as (-> & X); [rewrite E; apply in_app_iff; right; now left|]. rewrite I3, C.
      destruct (asks o (ep_trace e)); [contradiction|discriminate].
  - (* the handler listens *)
    apply (flux_ok_inert client e _ []); auto; [now rewrite app_nil_r|cbn; unfold len; rewrite LookupProofs.upd_length; lia| | |constructor].
    + intros o' s1 Ho'. destruct (N.eq_dec o o') as [<-|Ne]; [rewrite (obj_set_same o _ e _ Ho) in Ho'; discriminate|]. now rewrite obj_set_other in Ho'.
    + intros o' x Ho' Hx. destruct (N.eq_dec o o') as [<-|Ne]; [rewrite Ho in Ho'; injection Ho' as <-; now destruct (Hx RC sid a b)|]. now rewrite obj_set_other.
  - eapply Inert; try reflexivity. destruct Hev as [->| ->]; repeat constructor.
  - eapply Inert; try reflexivity. repeat constructor.
  - eapply Inert; try reflexivity. destruct Hev as [->| ->]; repeat constructor.
  - eapply Inert; try reflexivity. repeat constructor.
  - eapply Inert; try reflexivity. repeat constructor.
  - apply (Inert _ (HRecv f :: map (HCall o) (passed y (calls_of f)))); [destruct (closes f); reflexivity..|].
    constructor; [exact I|]. generalize (passed y (calls_of f)). induction l; constructor; auto.
  - (* a request is served *)
    pose proof (handle_request_eq _ _ _ _ _ _ He) as E. set (e1 := drop_job i e) in *.
    assert (Hd : inert client e (dispatched reg k r (len (ep_objs e1)))).
    { assert (P : N.odd (rq_stream r) = negb client) by (apply (g_jobs client e G k), (nth_error_In _ _ Hj)). unfold dispatched.
      destruct (len (rq_metadata r) <? 8); [constructor; [intros _; exact P|constructor]|].
      destruct (do_get k reg (unbe (takeN 4 (rq_metadata r)))); [|constructor; [intros _; exact P|constructor]]. destruct k; repeat constructor. }
    destruct (accepted reg k r && opens k).
    + apply (flux_ok_inert client e e' (dispatched reg k r (len (ep_objs e1)))); auto; rewrite E; try reflexivity.
      * cbn. unfold len. rewrite app_length. lia.
      * intros o s' Ho. change (ep_obj o (ep_new (OReq k (rq_stream r) (has_sub k) false) e1) = Some (OFlux s')) in Ho. apply obj_new in Ho.
        destruct Ho as [Ho|[_ Ho]]; [exact Ho|discriminate].
      * intros o x Ho _. apply (obj_new_old o (OReq k (rq_stream r) (has_sub k) false) e1 x Ho).
    + apply (Inert _ (dispatched reg k r (len (ep_objs e1)))); rewrite ?E; try reflexivity. exact Hd.
  - eapply Inert; try reflexivity. repeat constructor.
  - (* completion processed *)
    destruct (fo_obj client e F o s Ho) as (A & B & C & D).
    apply (flux_ok_step client e _ [HSettled o]); auto; try reflexivity; cbn [ep_emit ep_ids ep_objs ep_set drop_job ep_trace]; try lia.
    + unfold len. rewrite LookupProofs.upd_length. lia.
    + intros o' s1 Ho'. change (ep_obj o' (ep_set o (OFlux (sf_on_complete s)) e) = Some (OFlux s1)) in Ho'. destruct (N.eq_dec o o') as [<-|Ne].
      * right. rewrite (obj_set_same o _ e _ Ho) in Ho'. injection Ho' as <-. unfold flux_at. cbn [sf_on_complete sf_complete sf_first sf_req sf_in].
        rewrite settled_app, asks_app, feds_app, !sent_app. cbn [settled existsb asks feds fed flat_map sent]. rewrite N.eqb_refl, orb_true_r.
        assert (E0 : (if settled o (ep_trace e) then [] else []) = @nil Z) by (now destruct (settled o (ep_trace e))). 
        assert (E1 : (if negb (isnil (asks o (ep_trace e))) then [] else if settled o (ep_trace e) then [] else []) = @nil inev)
          by (now destruct (settled o (ep_trace e)), (isnil (asks o (ep_trace e)))).
        cbn [app]. rewrite E0, E1, !app_nil_r. auto.
      * left. rewrite obj_set_other in Ho' by exact Ne. split; [exact Ho'|]. split; [constructor; [exact Ne|constructor]|repeat constructor].
    + intros f [E|[]]. discriminate.
    + intros o' Hlen. constructor; [|constructor]. intros <-. apply obj_lt in Ho. unfold len in *. rewrite LookupProofs.upd_length in Hlen. lia.
    + intros o' x k sid q b Ho' Hm. destruct (N.eq_dec o o') as [<-|Ne].
      * exists (OFlux (sf_on_complete s)). split; [now apply (obj_set_same o _ e (OFlux s))|]. rewrite Ho in Ho'. injection Ho' as <-. exact Hm.
      * exists x. split; [|exact Hm]. change (ep_obj o' (ep_set o (OFlux (sf_on_complete s)) e) = Some x). now rewrite obj_set_other.
    + intros o' k sid q b [E|[]]. discriminate.
    + intros [|u u1] f u2 E; [discriminate|]. destruct u1; discriminate.
  - eapply Inert; try reflexivity; [symmetry; apply app_nil_r|constructor].
Qed.

End Props.

(** All histories of one end with fewer than 2^30 calls, whose peer uses stream
    ids of its own parity. *)
Definition history (reg : registry) (sb : N -> bool) (client : bool) (l : list hop) (e : ep) : Prop :=
  hrun reg sb client l ep_init = Ok e /\ calls l < 2 ^ 30 /\ proper_peer client l.
Lemma history_flux : forall reg sb client l e, history reg sb client l e -> flux_ok client e /\ good client e.
Proof.
  intros reg sb client l e (H & C & P). apply (run_inv reg sb client (flux_ok client) (flux_ok_init client) (flux_ok_view reg sb client) l e); auto. lia.
Qed.
Theorem C59_demand_on_the_wire :
  forall reg sb client l e o k sid p input, history reg sb client l e -> k = RS \/ k = RC ->
    In (HCalled o k sid p input) (ep_trace e) ->
    sent demand_frame sid (ep_trace e) = announce (call_request k sid p) (asks o (ep_trace e)).
Proof.
  intros reg sb client l e o k sid p input H K Hc. destruct (history_flux reg sb client l e H) as [F G].
  destruct (fo_called client e F o k sid p input Hc) as (x & X1 & X2). destruct x as [r|s|]; cbn in X2; [destruct X2 as [-> _]; now destruct K| |destruct X2].
  destruct X2 as (_ & X2 & _). destruct (fo_obj client e F o s X1) as (_ & _ & X3 & _).
  assert (Es : rq_stream (sf_req s) = sid) by (exact (f_equal rq_stream X2)). rewrite Es in X3. rewrite X3.
  rewrite <- (announce_set (sf_req s) 0), X2. apply announce_set.
Qed.
(** The demand announced to the peer is the demand of the subscriber, modulo 2^32. *)
Definition announced (f : frame) : Z := match f with FRequest r => Z.of_N (rq_initial r) | FRequestN r => Z.of_N (rn_n r) | _ => 0%Z end.
Definition total (l : list Z) : Z := fold_right Z.add 0%Z l.
Theorem C59_demand_modulo :
  forall reg sb client l e o k sid p input, history reg sb client l e -> k = RS \/ k = RC ->
    In (HCalled o k sid p input) (ep_trace e) ->
    (total (map announced (sent demand_frame sid (ep_trace e))) mod 2 ^ 32 = total (asks o (ep_trace e)) mod 2 ^ 32)%Z.
Proof.
  intros reg sb client l e o k sid p input H K Hc. rewrite (C59_demand_on_the_wire reg sb client l e o k sid p input H K Hc).
  assert (W : forall m, Z.of_N (Z.to_N (m mod 2 ^ 32)) = (m mod 2 ^ 32)%Z) by (intros m; apply Z2N.id, Z.mod_pos_bound; reflexivity).
  destruct (asks o (ep_trace e)) as [|n ns]; [reflexivity|]. unfold announce. cbn [map total fold_right announced rq_initial]. rewrite W.
  rewrite Z.add_mod_idemp_l by discriminate. rewrite (Z.add_mod n), (Z.add_mod n (fold_right _ _ _)) by discriminate. do 2 f_equal.
  induction ns as [|m ns IH]; [reflexivity|]. cbn [map fold_right announced rn_n]. rewrite W, Z.add_mod_idemp_l by discriminate.
  rewrite (Z.add_mod m), (Z.add_mod m (fold_right _ _ _)) by discriminate. now rewrite IH.
Qed.
(** The input is sent from the first request on, completely and in order, and
    never before the request frame. *)
Theorem C59_input_on_the_wire :
  forall reg sb client l e o k sid p input, history reg sb client l e -> k = RS \/ k = RC ->
    In (HCalled o k sid p input) (ep_trace e) ->
    sent input_frame sid (ep_trace e) = (if input then map (in_frame sid) (feds o (ep_trace e)) else []) /\
    forall t1 f t2, ep_trace e = t1 ++ HSent f :: t2 -> input_frame f = true -> frame_stream f = sid ->
      exists r, In (HSent (FRequest r)) t1 /\ rq_stream r = sid.
Proof.
  intros reg sb client l e o k sid p input H K Hc. destruct (history_flux reg sb client l e H) as [F G].
  destruct (fo_called client e F o k sid p input Hc) as (x & X1 & X2). destruct x as [r|s|]; cbn in X2; [destruct X2 as [-> _]; now destruct K| |destruct X2].
  destruct X2 as (_ & X2 & <-). destruct (fo_obj client e F o s X1) as (_ & _ & X3 & X4).
  assert (Es : rq_stream (sf_req s) = sid) by (exact (f_equal rq_stream X2)). rewrite Es in *. split; [exact X4|].
  intros t1 f t2 Et Hf Hs. assert (Ho : N.odd (frame_stream f) = client) by (rewrite Hs, <- Es; eapply flux_stream_local; eauto).
  pose proof (fo_order client e F t1 f t2 Et Hf Ho) as W. rewrite Hs in W.
  rewrite Et, sent_app in X3. destruct (sent demand_frame sid t1) as [|g gs] eqn:Eg; [contradiction|].
  assert (Hg : In g (sent demand_frame sid t1)) by (rewrite Eg; now left).
  destruct (asks o (t1 ++ HSent f :: t2)) as [|n ns]; [discriminate|]. cbn [announce app] in X3. injection X3 as -> _.
  unfold sent in Hg. apply in_flat_map in Hg. destruct Hg as (ev & Hev & Hg). destruct ev; try destruct Hg.
  destruct (demand_frame f0 && (frame_stream f0 =? sid)) eqn:Ef; [|destruct Hg]. destruct Hg as [->|[]]. eexists. split; [exact Hev|exact Es].
Qed.

Definition pay1 : pay := {| py_data := [7]; py_meta := [0; 0; 0; 1; 0; 0; 0; 0] |}.
Definition item (sid : N) (d : bytes) (next complete : bool) : frame :=
  FPayload {| pl_stream := sid; pl_metadata := []; pl_data := d; pl_follows := false; pl_complete := complete; pl_next := next |}.
(** A channel: the first request (of -1) opens it, the input is forwarded from
    then on, requests after the completion are not sent. *)
Definition C59_history : list hop :=
  [XCall RC pay1 true; XSubscribe 0; XIn 0 (InNext pay1); XRequest 0 (-1); XIn 0 (InNext pay1); XFrame (item 1 [9] true false);
   XRequest 0 5; XFrame (item 1 [] false true); XRequest 0 6; XJob 0; XRequest 0 7; XIn 0 InComplete].
Example C59_example :
  exists e, history registry_init (fun _ => true) true C59_history e /\
    In (HCalled 0 RC 1 pay1 true) (ep_trace e) /\ asks 0 (ep_trace e) = [-1; 5; 6]%Z /\
    sent demand_frame 1 (ep_trace e) =
      [FRequest {| rq_type := FrameTypeRequestChannel; rq_stream := 1; rq_metadata := [0; 0; 0; 1; 0; 0; 0; 0]; rq_data := [7]; rq_follows := false;
                   rq_complete := false; rq_initial := 4294967295 |};
       FRequestN {| rn_stream := 1; rn_n := 5 |}; FRequestN {| rn_stream := 1; rn_n := 6 |}] /\
    sent input_frame 1 (ep_trace e) = [in_frame 1 (InNext pay1); in_frame 1 InComplete].
Proof.
  exists (match hrun registry_init (fun _ => true) true C59_history ep_init with Ok e => e | _ => ep_init end).
  split; [split; [vm_compute; reflexivity|split; [vm_compute; reflexivity|repeat constructor]]|].
  split; [vm_compute; tauto|]. split; [vm_compute; reflexivity|]. split; vm_compute; reflexivity.
Qed.
Print Assumptions C59_demand_on_the_wire.
Print Assumptions C59_demand_modulo.
Print Assumptions C59_input_on_the_wire.
