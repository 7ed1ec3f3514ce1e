(** C60: remote request-response calls. *)
From Verif Require Import Base BaseFacts FramesModel WasmModel InvokeModel LookupModel HandlerModel HandlerFacts HandlerProps.
From Verif Require MonoModel MonoFacts MonoProps.

(** ** C60.  Remote request-response calls. *)
(** Calls of the mono behind call [o]; frames received on a stream. *)
Definition got (o : N) (t : list hevent) : list scall :=
  flat_map (fun x => match x with HCall o' k => if o' =? o then [k] else [] | _ => [] end) t.
Definition recvd (sid : N) (t : list hevent) : list frame :=
  flat_map (fun x => match x with HRecv f => if frame_stream f =? sid then [f] else [] | _ => [] end) t.
Definition is_sub (o : N) (x : hevent) : bool := match x with HSubscribed o' => o' =? o | _ => false end.
(** The part of the trace after the first subscription of [o]. *)
Fixpoint after (o : N) (t : list hevent) : list hevent :=
  match t with [] => [] | x :: t' => if is_sub o x then t' else after o t' end.
(** The answer contained in a frame. *)
Definition answer_of (f : frame) : option scall :=
  match f with
  | FPayload p => if pl_next p then Some (SNext {| py_data := pl_data p; py_meta := pl_metadata p |}) else None
  | FError x => Some (SError (er_data x))
  | _ => None
  end.
Definition answers (fs : list frame) : list scall := flat_map (fun f => match answer_of f with Some a => [a] | None => [] end) fs.
(** The peer does not close the stream (Cancel, or a bare completion) before answering. *)
Definition ending (f : frame) : bool := match f with FCancel _ => true | FPayload p => pl_complete p | _ => false end.
Fixpoint prompt (fs : list frame) : Prop :=
  match fs with
  | [] => True
  | f :: fs' => match answer_of f with Some _ => True | None => ending f = false /\ prompt fs' end
  end.
Inductive subseq {A} : list A -> list A -> Prop :=
| sub_nil : subseq [] []
| sub_skip x a b : subseq a b -> subseq a (x :: b)
| sub_take x a b : subseq a b -> subseq (x :: a) (x :: b).

Lemma subseq_refl : forall A (l : list A), subseq l l.
Proof. intros A l. induction l; [apply sub_nil|apply sub_take; assumption]. Qed.
Lemma subseq_app : forall A (a b c d : list A), subseq a b -> subseq c d -> subseq (a ++ c) (b ++ d).
Proof. induction 1; intros; cbn; [assumption|apply sub_skip; auto|apply sub_take; auto]. Qed.
Lemma subseq_more : forall A (a b c : list A), subseq a b -> subseq a (b ++ c).
Proof.
  intros A a b c H. rewrite <- (app_nil_r a). apply subseq_app; [exact H|]. clear. induction c; [apply sub_nil|apply sub_skip; assumption].
Qed.
Lemma subseq_nil : forall A (l : list A), subseq [] l.
Proof. intros A l. induction l; [apply sub_nil|apply sub_skip; assumption]. Qed.
Lemma scall_eq_dec : forall a b : scall, {a = b} + {a <> b}.
Proof. repeat decide equality. Defined.
Definition subscribed (o : N) (t : list hevent) : bool := existsb (is_sub o) t.
Definition subs (o : N) (t : list hevent) : nat := List.length (filter (is_sub o) t).
Lemma after_app : forall o t u, after o (t ++ u) = if subscribed o t then after o t ++ u else after o u.
Proof. intros o t u. induction t as [|x t IH]; [reflexivity|]. cbn [app after subscribed existsb]. destruct (is_sub o x); [reflexivity|exact IH]. Qed.
Lemma after_none : forall o t, subscribed o t = false -> after o t = [].
Proof. intros o t. induction t as [|x t IH]; [reflexivity|]. cbn [after subscribed existsb]. destruct (is_sub o x); [discriminate|exact IH]. Qed.
Lemma got_app : forall o t u, got o (t ++ u) = got o t ++ got o u.
Proof. intros. apply flat_map_app. Qed.
Lemma recvd_app : forall o t u, recvd o (t ++ u) = recvd o t ++ recvd o u.
Proof. intros. apply flat_map_app. Qed.
Lemma answers_app : forall t u, answers (t ++ u) = answers t ++ answers u.
Proof. intros. apply flat_map_app. Qed.
Lemma subscribed_app : forall o t u, subscribed o (t ++ u) = subscribed o t || subscribed o u.
Proof. intros. apply existsb_app. Qed.
Lemma subs_app : forall o t u, subs o (t ++ u) = (subs o t + subs o u)%nat.
Proof. intros. unfold subs. now rewrite filter_app, app_length. Qed.
Lemma prompt_app : forall fs gs, prompt (fs ++ gs) -> prompt fs /\ (answers fs = [] -> prompt gs /\ Forall (fun f => ending f = false) fs).
Proof.
  induction fs as [|f fs IH]; intros gs H; [cbn in *; auto|]. cbn [app prompt answers flat_map] in *. fold (answers fs).
  destruct (answer_of f) eqn:E; [split; [exact I|discriminate]|]. destruct H as [H1 H2]. destruct (IH gs H2) as [P Q].
  split; [auto|]. cbn. intros W. destruct (Q W). auto.
Qed.

Record mono_at (o : N) (r : request) (t : list hevent) (R : Prop) : Prop := {
  m_no : subscribed o t = false -> ~ R /\ got o t = [];
  m_sub : subseq (got o t) (answers (recvd (rq_stream r) t));
  m_first : prompt (recvd (rq_stream r) (after o t)) -> hd_error (got o t) = hd_error (answers (recvd (rq_stream r) (after o t))) /\
    (subscribed o t = true -> answers (recvd (rq_stream r) (after o t)) = [] -> R);
  m_sent : sent demand_frame (rq_stream r) t = repeat (FRequest r) (subs o t) }.
Lemma mono_at_ext : forall o r t (R : Prop) ev (R' : Prop), mono_at o r t R -> subscribed o ev = false -> sent demand_frame (rq_stream r) ev = [] ->
  let fs := recvd (rq_stream r) ev in
  (got o ev = [] \/ (R /\ got o ev = answers fs)) ->
  (R' -> R) ->
  (got o ev <> answers fs -> ~ R) ->
  (R -> R' \/ Exists (fun f => ending f = true) fs \/ answers fs <> []) -> mono_at o r (t ++ ev) R'.
Proof.
  intros o r t R ev R' [A B C D] Hs Hd fs Hg HR Hm Hk.
  assert (A1 : subscribed o t = false -> ~ R' /\ got o t = [] /\ got o ev = []).
  { intros S. destruct (A S) as [A1 A2]. split; [tauto|]. split; [exact A2|]. destruct Hg as [X|[X _]]; [exact X|contradiction]. }
  constructor.
  - rewrite subscribed_app, Hs, orb_false_r, got_app. intros S. destruct (A1 S) as (X & -> & ->). auto.
  - rewrite got_app, recvd_app, answers_app. destruct Hg as [Hg|[_ Hg]]; rewrite Hg.
    + rewrite app_nil_r. now apply subseq_more.
    + apply subseq_app; [exact B|apply subseq_refl].
  - rewrite after_app, subscribed_app, Hs, orb_false_r, got_app. destruct (subscribed o t) eqn:S.
    + rewrite recvd_app. fold fs. intros P. destruct (prompt_app _ _ P) as [P1 P2]. destruct (C P1) as [C1 C2]. rewrite answers_app.
      destruct (answers (recvd (rq_stream r) (after o t))) as [|a l] eqn:E.
      * destruct (P2 eq_refl) as [P3 _]. destruct (got o t) as [|g gl] eqn:Eg; [|discriminate]. cbn [app]. specialize (C2 eq_refl eq_refl).
        assert (Z : got o ev = answers fs). { destruct (list_eq_dec scall_eq_dec (got o ev) (answers fs)) as [Z|Z]; [exact Z|]. now destruct (Hm Z). }
        rewrite Z. split; [reflexivity|]. intros _ Ha. destruct (Hk C2) as [W|[W|W]]; [exact W| |contradiction].
        exfalso. clear -W P3 Ha. induction fs as [|f fs IH]; [inversion W|]. cbn [prompt answers flat_map] in *. destruct (answer_of f); [discriminate|].
        destruct P3 as [P3 P4]. inversion W; [congruence|]. auto.
      * split; [|discriminate]. destruct (got o t) as [|g gl]; [discriminate|]. exact C1.
    + destruct (A1 eq_refl) as (X & -> & ->). rewrite (after_none o ev Hs). cbn. split; [reflexivity|discriminate].
  - rewrite sent_app, Hd, app_nil_r, subs_app. assert (Z : subs o ev = 0%nat).
    { unfold subs. clear -Hs. induction ev as [|x ev IH]; [reflexivity|]. cbn [subscribed existsb filter] in *. destruct (is_sub o x); [discriminate|auto]. }
    now rewrite Z, Nat.add_0_r.
Qed.

Lemma registered_on : forall c i f e sid o, good c e ->
  registered sid o (ep_on i f e) <-> (if Bool.eqb (N.odd sid) (N.odd i) then In (sid, o) (entries (f (ep_streams i e))) else registered sid o e).
Proof.
  intros c i f e sid o G. unfold registered, ep_streams, ep_on. cbn [ep_guest ep_host]. destruct (N.odd sid), (N.odd i); cbn [Bool.eqb]; reflexivity.
Qed.
Lemma same_table : forall sid i e, N.odd sid = N.odd i -> ep_streams sid e = ep_streams i e.
Proof. intros sid i e H. unfold ep_streams. now rewrite H. Qed.
Lemma registered_register : forall c i o' e sid o, good c e -> registered sid o (register i o' e) <-> registered sid o e \/ (sid = i /\ o = o').
Proof.
  intros c i o' e sid o G. unfold register. rewrite (registered_on c) by exact G. destruct (Bool.eqb (N.odd sid) (N.odd i)) eqn:E.
  - apply Bool.eqb_prop in E. destruct (tab_add _ (i, o') (good_streams c i e G)) as [_ ->]. unfold registered. rewrite (same_table sid i e E), in_app_iff. cbn [In].
    split; intros [H|H]; auto.
    + destruct H as [H|[]]. injection H as -> ->. auto.
    + destruct H as [-> ->]. auto.
  - split; [auto|]. intros [H|[-> _]]; [exact H|]. now rewrite Bool.eqb_reflx in E.
Qed.
Lemma registered_remove : forall c i e sid o, good c e ->
  (registered sid o (remove_stream i e) -> registered sid o e) /\ (sid <> i -> registered sid o e -> registered sid o (remove_stream i e)).
Proof.
  intros c i e sid o G. unfold remove_stream. rewrite (registered_on c) by exact G. destruct (Bool.eqb (N.odd sid) (N.odd i)) eqn:E; [|auto].
  apply Bool.eqb_prop in E. destruct (tab_remove _ i (good_streams c i e G)) as (_ & H1 & H2). unfold registered. rewrite (same_table sid i e E).
  split; [apply H1|]. intros Hn H. apply H2; auto.
Qed.
(** Events of which call [o] takes no notice. *)
Definition unseen (o : N) (ev : list hevent) : Prop :=
  Forall (fun x => match x with HSubscribed o' => o' <> o | HCall o' _ => o' <> o | _ => True end) ev.
Lemma unseen_facts : forall o ev, unseen o ev -> subscribed o ev = false /\ got o ev = [].
Proof.
  intros o ev H. induction H as [|x ev Hx H IH]; [auto|]. destruct IH as [A B].
  destruct x; cbn [subscribed existsb is_sub got flat_map]; fold (got o ev) (subscribed o ev); auto; apply N.eqb_neq in Hx; rewrite Hx; auto.
Qed.
Record mono_ok (client : bool) (e : ep) : Prop := {
  mo_flux : flux_ok client e;
  mo_obj : forall o r, ep_obj o e = Some (OMono r) -> mono_at o r (ep_trace e) (registered (rq_stream r) o e);
  mo_new : forall o, len (ep_objs e) <= o -> unseen o (ep_trace e) }.
Definition neutral (sid : N) (ev : list hevent) : Prop := answers (recvd sid ev) = [] /\ Forall (fun f => ending f = false) (recvd sid ev).
Lemma mono_at_quiet : forall o r t (R : Prop) ev (R' : Prop), mono_at o r t R -> unseen o ev -> unsent (rq_stream r) ev -> neutral (rq_stream r) ev -> (R <-> R') ->
  mono_at o r (t ++ ev) R'.
Proof.
  intros o r t R ev R' M U V [N1 N2] E. destruct (unseen_facts o ev U) as [U1 U2]. destruct (unsent_facts _ ev V) as [V1 _].
  apply (mono_at_ext o r t R); auto; try tauto. rewrite U2, N1. intros X. now destruct X.
Qed.
Lemma mono_ok_step : forall client e e' ev, mono_ok client e -> flux_ok client e' -> ep_trace e' = ep_trace e ++ ev ->
  len (ep_objs e) <= len (ep_objs e') ->
  (forall o r, ep_obj o e' = Some (OMono r) ->
    (ep_obj o e = Some (OMono r) /\ unseen o ev /\ unsent (rq_stream r) ev /\ neutral (rq_stream r) ev /\ (registered (rq_stream r) o e <-> registered (rq_stream r) o e'))
    \/ mono_at o r (ep_trace e ++ ev) (registered (rq_stream r) o e')) ->
  (forall o, len (ep_objs e') <= o -> unseen o ev) -> mono_ok client e'.
Proof.
  intros client e e' ev [A B C] F T L H1 H2. constructor; [exact F|rewrite T..].
  - intros o r Ho. destruct (H1 o r Ho) as [(X1 & X2 & X3 & X4 & X5)|X]; [|exact X]. eapply mono_at_quiet; eauto.
  - intros o Ho. apply Forall_app. split; [apply C; lia|exact (H2 o Ho)].
Qed.
Lemma mono_stream_local : forall client e o s, good client e -> ep_obj o e = Some (OMono s) -> N.odd (rq_stream s) = client.
Proof. intros client e o s G H. destruct (g_loc client e G o _ _ H eq_refl) as (p & _ & ->). apply nth_id_odd. Qed.
(** An object registered under the id of a call is that call. *)
Lemma registered_mono : forall client e o r o', good client e -> ep_obj o e = Some (OMono r) -> registered (rq_stream r) o' e -> o' = o.
Proof.
  intros client e o r o' G Ho Hr. destruct (registered_obj client _ _ e G Hr) as (x & X1 & X2).
  assert (Hl : local_id x = Some (rq_stream r)).
  { destruct x as [q|s|k sid a b]; cbn in *; [congruence..|]. pose proof (g_peer client e G o' k sid a b X1) as P.
    pose proof (mono_stream_local client e o r G Ho) as Q. rewrite X2 in P. rewrite Q in P. now destruct client. }
  exact (g_inj client e G o' o _ _ _ X1 Ho Hl eq_refl).
Qed.
Lemma answers_single : forall f, on_stream f = true -> forall r, passed (OMono r) (calls_of f) = answers [f].
Proof.
  intros f H r. destruct f as [| | |x|p|x]; try discriminate H; cbn; try reflexivity. destruct (pl_next p), (pl_complete p); reflexivity.
Qed.

Section Props60.
Variable reg : registry.
Variable subscribable : N -> bool.
Variable client : bool.
Lemma mono_ok_init : mono_ok client ep_init.
Proof.
  constructor; [apply flux_ok_init| |].
  - intros o s H. unfold ep_obj in H. cbn in H. destruct (N.to_nat o); discriminate.
  - intros o _. constructor.
Qed.
Lemma mono_ok_view : forall x e e', good client e -> good client e' -> mono_ok client e -> (is_call x = true -> ep_ids e < 1073741823) ->
  (forall r, x = XFrame (FRequest r) -> N.odd (rq_stream r) = negb client) -> view reg subscribable client x e e' -> mono_ok client e'.
Proof.
  intros x e e' G G' M Hc Hr V.
  assert (F' : flux_ok client e') by (apply (flux_ok_view reg subscribable client x e); auto; apply M).
  assert (Quiet : forall e1 ev, flux_ok client e1 -> ep_trace e1 = ep_trace e ++ ev -> len (ep_objs e) <= len (ep_objs e1) -> (forall o, unseen o ev) ->
    (forall o r, ep_obj o e1 = Some (OMono r) -> ep_obj o e = Some (OMono r)) ->
    (forall f, In (HSent f) ev -> demand_frame f || input_frame f = true -> forall o r, ep_obj o e = Some (OMono r) -> frame_stream f <> rq_stream r) ->
    (forall o r, ep_obj o e = Some (OMono r) -> neutral (rq_stream r) ev) ->
    (forall o r, ep_obj o e = Some (OMono r) -> registered (rq_stream r) o e <-> registered (rq_stream r) o e1) -> mono_ok client e1).
  { intros e1 ev F1 T L U O S N R. apply (mono_ok_step client e e1 ev); auto. intros o r Ho. left. specialize (O o r Ho). split; [exact O|].
    split; [apply U|]. split; [|split; [eauto|auto]]. unfold unsent. rewrite Forall_forall. intros z Hz. destruct z; auto. intros Hk. apply (S f Hz Hk o r O). }
  assert (U0 : forall l : list frame, forall o, unseen o (map HSent l)) by (intros l o; induction l; constructor; auto).
  assert (N0 : forall l : list frame, forall sid, neutral sid (map HSent l)) by (intros l sid; induction l; [split; constructor|assumption]).
  destruct V as [x e Hx|p input e|k p input b y e Hk|o y i e Ho Hl|o n s s' l e Ho Hs|o n sid a e Ho|o s e Ho|o sid a e Ho|o ev s e Ho|o sid a b e Ho
    |s t ev e Hev|r k e Hk|r ev e Hk Hev|r js e Hjs Hm|f e Hf Hg|f o y e Hf Hg Ho Hsk|i k r e e' Hj He|i o n e Hj|i o s e Hj Ho|i o e Hj Ho].
  - exact M.
  - (* fire and forget *)
    eapply Quiet; try exact F'; try reflexivity; auto.
    + intros o. repeat constructor.
    + intros f [E|[]] _ o r Ho E2. injection E as <-. destruct (g_loc client e G o _ _ Ho eq_refl) as (q & Q1 & Q2). cbn in E2. rewrite Q2 in E2. apply nth_id_inj in E2. lia.
    + intros o r Ho. split; constructor.
  - (* calls *)
    apply (mono_ok_step client e _ [HCalled (len (ep_objs e)) k (nth_id client (ep_ids e)) p b]); auto.
    + cbn. unfold len. rewrite app_length. lia.
    + intros o r Ho. change (ep_obj o (ep_new y (with_ids (ep_ids e + 1) e)) = Some (OMono r)) in Ho. apply obj_new in Ho. destruct Ho as [Ho|[-> <-]].
      * left. change (ep_obj o e = Some (OMono r)) in Ho. repeat split; auto; repeat constructor.
      * right. change (len (ep_objs (with_ids (ep_ids e + 1) e))) with (len (ep_objs e)).
        assert (E : r = call_request RR (nth_id client (ep_ids e)) p) by (destruct Hk as [(_ & _ & E)|[(_ & _ & E)|(_ & _ & E)]]; [now injection E|discriminate..]). clear Hk.
        assert (W : ~ registered (rq_stream r) (len (ep_objs e)) e).
        { intros W. destruct (registered_obj client _ _ e G W) as (z & Z1 & _). apply obj_lt in Z1. lia. }
        destruct (unseen_facts _ _ (mo_new client e M (len (ep_objs e)) (N.le_refl _))) as [U1 U2].
        assert (Z : sent demand_frame (rq_stream r) (ep_trace e) = []).
        { destruct (sent demand_frame (rq_stream r) (ep_trace e)) as [|f fs] eqn:Ef; [reflexivity|]. exfalso.
          assert (Hin : In f (sent demand_frame (rq_stream r) (ep_trace e))) by (rewrite Ef; now left).
          unfold sent in Hin. apply in_flat_map in Hin. destruct Hin as (ev & Hev & Hin). destruct ev; try destruct Hin.
          destruct (demand_frame f0) eqn:Ew; [|destruct Hin]. destruct (frame_stream f0 =? rq_stream r) eqn:En; [|destruct Hin].
          apply N.eqb_eq in En. rewrite E in En. cbn in En. destruct (fo_ids client e (mo_flux client e M) f0 Hev) as [Q|(q & Q1 & Q2)]; [now rewrite Ew| |].
          - rewrite En, nth_id_odd in Q. now destruct client.
          - rewrite En in Q2. apply nth_id_inj in Q2. lia. }
        constructor.
        -- intros _. split; [exact W|]. now rewrite got_app, U2.
        -- rewrite got_app, U2. cbn. generalize (answers (recvd (rq_stream r) (ep_trace e ++ [HCalled (len (ep_objs e)) k (nth_id client (ep_ids e)) p b]))).
           induction l; constructor; auto.
        -- intros _. rewrite after_app, subscribed_app, U1, got_app, U2. split; [reflexivity|discriminate].
        -- rewrite sent_app, Z, subs_app. cbn. rewrite Nat.add_0_r. assert (X : subs (len (ep_objs e)) (ep_trace e) = 0%nat).
           { unfold subs. clear -U1. induction (ep_trace e) as [|z t IH]; [reflexivity|]. cbn [subscribed existsb filter] in *. destruct (is_sub _ z); [discriminate|auto]. }
           now rewrite X.
    + intros o _. repeat constructor.
  - (* subscribe *)
    set (ev := HSubscribed o :: match y with OMono r => [HSent (FRequest r)] | _ => [] end) in *.
    assert (Hev : forall f, In (HSent f) ev -> exists r, y = OMono r /\ f = FRequest r).
    { intros f [E|Hf]; [discriminate|]. destruct y; [|destruct Hf..]. destruct Hf as [E|[]]. injection E as <-. eauto. }
    assert (Ho' : forall o', o <> o' -> unseen o' ev).
    { intros o' Ne. constructor; [exact Ne|]. destruct y; repeat constructor. }
    apply (mono_ok_step client e _ ev); auto.
    + cbn. lia.
    + intros o' r Hr'. change (ep_obj o' e = Some (OMono r)) in Hr'. change (registered (rq_stream r) o' (ep_emit ev (register i o e))) with (registered (rq_stream r) o' (register i o e)).
      destruct (N.eq_dec o o') as [<-|Ne].
      * right. rewrite Ho in Hr'. injection Hr' as ->. injection Hl as <-. destruct (mo_obj client e M o r Ho) as [A B C D].
        assert (T1 : subscribed o ev = true) by (cbn; now rewrite N.eqb_refl).
        assert (T2 : got o ev = []) by reflexivity. assert (T3 : recvd (rq_stream r) ev = []) by reflexivity.
        assert (T4 : after o ev = [HSent (FRequest r)]) by (cbn; now rewrite N.eqb_refl).
        assert (R' : registered (rq_stream r) o (register (rq_stream r) o e)) by (apply (registered_register client); auto).
        constructor.
        -- rewrite subscribed_app, T1, orb_true_r. discriminate.
        -- rewrite got_app, recvd_app, T2, T3, !app_nil_r. exact B.
        -- rewrite after_app. rewrite got_app, T2, app_nil_r. destruct (subscribed o (ep_trace e)) eqn:S.
           ++ rewrite recvd_app, T3, app_nil_r. intros P. destruct (C P) as [C1 _]. auto.
           ++ rewrite T4. intros _. destruct (A eq_refl) as [_ ->]. auto.
        -- rewrite sent_app, D, subs_app. cbn [ev sent flat_map demand_frame frame_stream andb app]. rewrite N.eqb_refl. cbn [app].
           assert (Z : subs o ev = 1%nat) by (unfold subs; cbn; now rewrite N.eqb_refl). rewrite Z, Nat.add_1_r.
           clear. induction (subs o (ep_trace e)); [reflexivity|]. cbn. now rewrite IHn.
      * left. split; [exact Hr'|]. split; [now apply Ho'|]. split; [|split].
        -- unfold unsent. rewrite Forall_forall. intros z Hz. destruct z; auto. intros _ E. destruct (Hev f Hz) as (q & -> & ->). cbn in E.
           apply Ne. apply (g_inj client e G o o' _ _ (rq_stream q) Ho Hr'); [reflexivity|cbn; congruence].
        -- split; destruct y; constructor.
        -- rewrite (registered_register client i o e (rq_stream r) o' G). split; [auto|]. intros [H|[_ H]]; [exact H|congruence].
    + intros o' Hlen. apply Ho'. intros <-. apply obj_lt in Ho. change (len (ep_objs e) <= o) in Hlen. lia.
  - (* a request *)
    pose proof (same_stream n s s' l Hs) as Es.
    assert (Hl : forall f, In f l -> frame_stream f = rq_stream (sf_req s)).
    { unfold sf_request in Hs. destruct (sf_complete s); [injection Hs as _ <-; intros f []|].
      destruct (sf_first s); injection Hs as _ <-; intros f [<-|[]]; auto. }
    apply (Quiet _ (HAsked o n :: map HSent l)); try exact F'; try reflexivity.
    + cbn. unfold len. rewrite LookupProofs.upd_length. lia.
    + intros o'. constructor; [exact I|apply U0].
    + intros o' r Ho'. change (ep_obj o' (ep_set o (OFlux s') e) = Some (OMono r)) in Ho'. destruct (N.eq_dec o o') as [<-|Ne].
      * rewrite (obj_set_same o _ e _ Ho) in Ho'. discriminate.
      * now rewrite obj_set_other in Ho'.
    + intros f [E|Hf] _ o' r Ho' E2; [discriminate|]. apply in_map_iff in Hf. destruct Hf as (f' & E & Hf). injection E as ->. rewrite (Hl f Hf) in E2.
      assert (o = o') by (apply (g_inj client e G o o' _ _ (rq_stream r) Ho Ho'); [cbn; congruence|reflexivity]). subst. congruence.
    + intros o' r _. apply (N0 l).
  - eapply Quiet; try exact F'; try reflexivity; auto.
    + intros o'. repeat constructor.
    + intros f [E|[]] _ o' r Ho' E2. injection E as <-. cbn in E2. subst sid. pose proof (g_peer client e G o RC _ a true Ho) as P. rewrite (mono_stream_local client e o' r G Ho') in P. now destruct client.
    + intros o' r _. split; constructor.
  - eapply Quiet; try exact F'; try reflexivity; auto.
    + intros o'. repeat constructor.
    + intros f [E|[E|[]]] Hk; [discriminate|]. injection E as <-. discriminate Hk.
    + intros o' r _. split; constructor.
  - eapply Quiet; try exact F'; try reflexivity; auto.
    + intros o'. repeat constructor.
    + intros f [E|[]] Hk. injection E as <-. discriminate Hk.
    + intros o' r _. split; constructor.
  - (* the input *)
    apply (Quiet _ (HFed o ev :: map HSent (sf_input ev s))); try exact F'; try reflexivity; auto.
    + intros o'. constructor; [exact I|apply U0].
    + intros f [E|Hf] _ o' r Ho' E2; [discriminate|]. apply in_map_iff in Hf. destruct Hf as (f' & E & Hf). injection E as ->. unfold sf_input in Hf.
      destruct (sf_in s && negb (sf_first s)); [|destruct Hf]. destruct Hf as [<-|[]]. assert (E3 : frame_stream (in_frame (rq_stream (sf_req s)) ev) = rq_stream (sf_req s)) by (destruct ev; reflexivity).
      rewrite E3 in E2. assert (o = o') by (apply (g_inj client e G o o' _ _ (rq_stream r) Ho Ho'); [cbn; congruence|reflexivity]). subst. congruence.
    + intros o' r _. apply (N0 (sf_input ev s)).
  - apply (Quiet _ []); try exact F'; try reflexivity.
    + now rewrite app_nil_r.
    + cbn. unfold len. rewrite LookupProofs.upd_length. lia.
    + intros o'. constructor.
    + intros o' r Ho'. destruct (N.eq_dec o o') as [<-|Ne]; [rewrite (obj_set_same o _ e _ Ho) in Ho'; discriminate|]. now rewrite obj_set_other in Ho'.
    + intros f [].
    + intros o' r _. split; constructor.
  - eapply Quiet; try exact F'; try reflexivity; auto.
    + intros o'. destruct Hev as [->| ->]; repeat constructor.
    + intros f [E|Hf] _; [discriminate|]. destruct Hev as [->| ->]; [destruct Hf|destruct Hf as [E|[]]; discriminate].
    + intros o' r _. unfold neutral. cbn [recvd flat_map frame_stream]. assert (E : recvd (rq_stream r) ev = []) by (destruct Hev as [->| ->]; reflexivity).
      unfold recvd in E. rewrite E. destruct (0 =? rq_stream r); cbn; auto.
  - eapply Quiet; try exact F'; try reflexivity; auto.
    + intros o'. repeat constructor.
    + intros f [E|[]]. discriminate.
    + intros o' q _. unfold neutral. cbn. destruct (rq_stream r =? rq_stream q); cbn; auto.
  - eapply Quiet; try exact F'; try reflexivity; auto.
    + intros o'. destruct Hev as [->| ->]; repeat constructor.
    + intros f [E|Hf] _; [discriminate|]. destruct Hev as [->| ->]; [destruct Hf|destruct Hf as [E|[]]; discriminate].
    + intros o' q _. unfold neutral. cbn [recvd flat_map frame_stream]. assert (E : recvd (rq_stream q) ev = []) by (destruct Hev as [->| ->]; reflexivity).
      unfold recvd in E. rewrite E. destruct (rq_stream r =? rq_stream q); cbn; auto.
  - eapply Quiet; try exact F'; try reflexivity; auto.
    + intros o'. repeat constructor.
    + intros f [E|[]]. discriminate.
    + intros o' q _. unfold neutral. cbn. destruct (rn_stream r =? rq_stream q); cbn; auto.
  - (* a frame for an unknown stream *)
    apply (mono_ok_step client e _ [HRecv f; HRejected]); auto; [cbn; lia| |intros o _; repeat constructor].
    intros o r Ho. right. change (ep_obj o e = Some (OMono r)) in Ho. change (registered (rq_stream r) o (ep_emit [HRecv f; HRejected] e)) with (registered (rq_stream r) o e).
    apply (mono_at_ext o r (ep_trace e) (registered (rq_stream r) o e)); auto; [apply M; exact Ho|].
    intros Hne R. apply Hne. destruct (registered_get client _ _ e G R) as (o' & H1 & _). cbn. destruct (frame_stream f =? rq_stream r) eqn:E; [|reflexivity].
    apply N.eqb_eq in E. congruence.
  - (* a frame is delivered *)
    assert (Rg := get_registered client _ _ e G Hg).
    set (ev := HRecv f :: map (HCall o) (passed y (calls_of f))) in *.
    assert (T : forall (b : bool) w, ep_trace ((if b then remove_stream w else fun e => e) (ep_emit ev (add_jobs (settles o y (calls_of f)) e))) = ep_trace e ++ ev) by (intros [] w; reflexivity).
    assert (O : forall (b : bool) w, ep_objs ((if b then remove_stream w else fun e => e) (ep_emit ev (add_jobs (settles o y (calls_of f)) e))) = ep_objs e) by (intros [] w; reflexivity).
    set (e' := (if closes f then remove_stream (frame_stream f) else fun e => e) (ep_emit ev (add_jobs (settles o y (calls_of f)) e))) in *.
    assert (RR : forall sid o', (registered sid o' e' -> registered sid o' e) /\ (sid <> frame_stream f \/ closes f = false -> registered sid o' e -> registered sid o' e')).
    { intros sid o'. unfold e'. destruct (closes f); [|split; auto]. destruct (registered_remove client (frame_stream f) e sid o' G) as [R1 R2].
      split; [exact R1|]. intros [H|H]; [exact (R2 H)|discriminate]. }
    assert (Gs : forall o' l, o <> o' -> unseen o' (map (HCall o) l)) by (intros o' l Ne; induction l; constructor; auto).
    apply (mono_ok_step client e e' ev); auto; [apply T|unfold e'; rewrite O; lia| |].
    + intros o' r Ho'. assert (Ho2 : ep_obj o' e = Some (OMono r)) by (unfold ep_obj in *; unfold e' in Ho'; now rewrite O in Ho'). right.
      assert (Gl : forall l, got o (map (HCall o) l) = l) by (induction l as [|z l IH]; [reflexivity|]; cbn; rewrite N.eqb_refl; cbn; f_equal; exact IH).
      assert (Sl : forall l, subscribed o' (map (HCall o) l) = false) by (induction l; auto).
      assert (Dl : forall l, sent demand_frame (rq_stream r) (map (HCall o) l) = []) by (induction l; auto).
      assert (Cl : forall l, recvd (rq_stream r) (map (HCall o) l) = []) by (induction l; auto).
      assert (Cv : recvd (rq_stream r) ev = if frame_stream f =? rq_stream r then [f] else []).
      { unfold ev. change (HRecv f :: map (HCall o) (passed y (calls_of f))) with ([HRecv f] ++ map (HCall o) (passed y (calls_of f))). rewrite recvd_app, Cl. cbn. now rewrite !app_nil_r. }
      apply (mono_at_ext o' r (ep_trace e) (registered (rq_stream r) o' e)); [apply M; exact Ho2|apply Sl|apply Dl| | | |].
      * rewrite Cv. destruct (frame_stream f =? rq_stream r) eqn:E.
        -- apply N.eqb_eq in E. rewrite E in Rg. assert (o = o') by exact (registered_mono client e o' r o G Ho2 Rg). subst o'. right. split; [exact Rg|].
           rewrite Ho in Ho2. injection Ho2 as ->. rewrite <- (answers_single f Hf r). exact (Gl _).
        -- left. destruct (unseen_facts o' (map (HCall o) (passed y (calls_of f)))) as [_ U]; [|exact U]. apply Gs. intros <-.
           destruct (registered_obj client _ _ e G Rg) as (z & Z1 & Z2). rewrite Ho2 in Z1. injection Z1 as <-. cbn in Z2. rewrite Z2, N.eqb_refl in E. discriminate.
      * apply RR.
      * rewrite Cv. intros Hne R. apply Hne. destruct (frame_stream f =? rq_stream r) eqn:E.
        -- apply N.eqb_eq in E. rewrite E in Rg. assert (o = o') by exact (registered_mono client e o' r o G Ho2 Rg). subst o'.
           rewrite Ho in Ho2. injection Ho2 as ->. rewrite <- (answers_single f Hf r). exact (Gl _).
        -- destruct (unseen_facts o' (map (HCall o) (passed y (calls_of f)))) as [_ U]; [|exact U]. apply Gs. intros <-.
           destruct (registered_obj client _ _ e G Rg) as (z & Z1 & Z2). rewrite Ho2 in Z1. injection Z1 as <-. cbn in Z2. rewrite Z2, N.eqb_refl in E. discriminate.
      * rewrite Cv. intros R. destruct (frame_stream f =? rq_stream r) eqn:E.
        -- destruct (closes f) eqn:Ec; [|left; apply RR; auto]. right. destruct f as [| | |w|w|w]; try discriminate Hf; cbn in Ec.
           ++ left. repeat constructor.
           ++ left. constructor. exact Ec.
           ++ right. discriminate.
        -- left. apply RR; [|exact R]. left. intros X. rewrite X, N.eqb_refl in E. discriminate.
    + intros o' Hlen. constructor; [exact I|]. apply Gs. intros <-. apply obj_lt in Ho. unfold e' in Hlen. rewrite O in Hlen. lia.
  - (* a request is served *)
    pose proof (handle_request_eq _ _ _ _ _ _ He) as E. set (e1 := drop_job i e) in *.
    assert (P : N.odd (rq_stream r) = negb client) by (apply (g_jobs client e G k), (nth_error_In _ _ Hj)).
    assert (G1 : good client e1).
    { apply (good_same client e); auto; [apply N.le_refl|]. cbn [e1 drop_job ep_jobs]. intros z Hz. apply in_app_iff in Hz.
      rewrite <- (firstn_skipn i (ep_jobs e)), in_app_iff. destruct Hz as [Hz|Hz]; [now left|right].
      rewrite skipn_S_tl in Hz. destruct (skipn i (ep_jobs e)); [destruct Hz|now right]. }
    assert (Hd : Forall (fun z => match z with HSubscribed _ | HCall _ _ | HRecv _ => False | HSent f => frame_stream f = rq_stream r | _ => True end) (dispatched reg k r (len (ep_objs e1)))).
    { unfold dispatched. destruct (len (rq_metadata r) <? 8); [constructor; [reflexivity|constructor]|].
      destruct (do_get k reg (unbe (takeN 4 (rq_metadata r)))); [|constructor; [reflexivity|constructor]]. destruct k; repeat constructor. }
    assert (Hs : forall f, In (HSent f) (dispatched reg k r (len (ep_objs e1))) -> demand_frame f || input_frame f = true ->
      forall o q, ep_obj o e = Some (OMono q) -> frame_stream f <> rq_stream q).
    { intros f Hf _ o q Ho X. rewrite Forall_forall in Hd. specialize (Hd _ Hf). cbn in Hd. rewrite <- Hd, X, (mono_stream_local client e o q G Ho) in P. now destruct client. }
    assert (Hu : forall o, unseen o (dispatched reg k r (len (ep_objs e1)))).
    { intros o. unfold unseen. apply Forall_impl with (2 := Hd). intros []; tauto. }
    assert (Hn : forall sid, neutral sid (dispatched reg k r (len (ep_objs e1)))).
    { intros sid. assert (X : recvd sid (dispatched reg k r (len (ep_objs e1))) = []); [|unfold neutral; rewrite X; auto].
      clear -Hd. induction Hd as [|z l Hz _ IH]; [reflexivity|]. destruct z; try exact IH. destruct Hz. }
    destruct (accepted reg k r && opens k).
    + apply (Quiet e' (dispatched reg k r (len (ep_objs e1)))); auto; rewrite E; try reflexivity.
      * cbn. unfold len. rewrite app_length. lia.
      * intros o s' Ho. change (ep_obj o (ep_new (OReq k (rq_stream r) (has_sub k) false) e1) = Some (OMono s')) in Ho. apply obj_new in Ho.
        destruct Ho as [Ho|[_ Ho]]; [exact Ho|discriminate].
      * intros o q Ho. set (e2 := ep_new _ e1).
        assert (G2 : good client e2). { apply good_new; [exact G1|discriminate|]. intros k0 sid a0 b0 X. injection X as _ <- _ _. exact P. }
        transitivity (registered (rq_stream q) o (register (rq_stream r) (len (ep_objs e1)) e2)); [|reflexivity].
        rewrite (registered_register client _ _ e2 _ _ G2). split; [auto|]. intros [H|[H _]]; [exact H|].
        rewrite <- H, (mono_stream_local client e o q G Ho) in P. now destruct client.
    + apply (Quiet e' (dispatched reg k r (len (ep_objs e1)))); auto; rewrite E; try reflexivity. intros o q Ho. exact Ho.
  - eapply Quiet; try exact F'; try reflexivity; auto.
    + intros o'. repeat constructor.
    + intros f [X|[]]. discriminate.
    + intros o' r _. split; constructor.
  - apply (Quiet _ [HSettled o]); try exact F'; try reflexivity.
    + cbn. unfold len. rewrite LookupProofs.upd_length. lia.
    + intros o'. repeat constructor.
    + intros o' r Ho'. change (ep_obj o' (ep_set o (OFlux (sf_on_complete s)) e) = Some (OMono r)) in Ho'.
      destruct (N.eq_dec o o') as [<-|Ne]; [rewrite (obj_set_same o _ e _ Ho) in Ho'; discriminate|]. now rewrite obj_set_other in Ho'.
    + intros f [X|[]]. discriminate.
    + intros o' r _. split; constructor.
  - apply (Quiet _ []); try exact F'; try reflexivity.
    + symmetry. apply app_nil_r.
    + intros o'. constructor.
    + auto.
    + intros f [].
    + intros o' r _. split; constructor.
Qed.
End Props60.

Lemma history_mono : forall reg sb client l e o sid p input, history reg sb client l e -> In (HCalled o RR sid p input) (ep_trace e) ->
  exists R, mono_at o (call_request RR sid p) (ep_trace e) R.
Proof.
  intros reg sb client l e o sid p input (H & C & P) Hc.
  destruct (run_inv reg sb client (mono_ok client) (mono_ok_init client) (mono_ok_view reg sb client) l e) as [M G]; auto; [lia|].
  destruct (fo_called client e (mo_flux client e M) o RR sid p input Hc) as (x & X1 & X2). destruct x as [r|s|]; cbn in X2; [|destruct X2 as [[X2|X2] _]; discriminate|destruct X2].
  destruct X2 as [_ ->]. eexists. exact (mo_obj client e M o _ X1).
Qed.
(** The request frame of a call with payload [p]. *)
Definition asking (sid : N) (p : pay) : frame :=
  FRequest {| rq_type := 4; rq_stream := sid; rq_metadata := py_meta p; rq_data := py_data p; rq_follows := false; rq_complete := true; rq_initial := 1 |}.

(** One request frame for each subscription, with the payload of the call. *)
Theorem C60_one_request_per_subscription :
  forall reg sb client l e o sid p input, history reg sb client l e -> In (HCalled o RR sid p input) (ep_trace e) ->
    sent demand_frame sid (ep_trace e) = repeat (asking sid p) (subs o (ep_trace e)).
Proof.
  intros reg sb client l e o sid p input H Hc. destruct (history_mono reg sb client l e o sid p input H Hc) as (R & M). exact (m_sent _ _ _ _ M).
Qed.
(** Nothing but what arrived on its own stream is ever delivered to a call, at
    most once and in that order. *)
Theorem C60_only_answers_on_own_stream :
  forall reg sb client l e o sid p input, history reg sb client l e -> In (HCalled o RR sid p input) (ep_trace e) ->
    subseq (got o (ep_trace e)) (answers (recvd sid (ep_trace e))).
Proof.
  intros reg sb client l e o sid p input H Hc. destruct (history_mono reg sb client l e o sid p input H Hc) as (R & M). exact (m_sub _ _ _ _ M).
Qed.
(** The first answer after the subscription is the one delivered, as long as
    the peer does not close the stream without answering. *)
Theorem C60_first_answer_delivered :
  forall reg sb client l e o sid p input, history reg sb client l e -> In (HCalled o RR sid p input) (ep_trace e) ->
    prompt (recvd sid (after o (ep_trace e))) ->
    hd_error (got o (ep_trace e)) = hd_error (answers (recvd sid (after o (ep_trace e)))).
Proof.
  intros reg sb client l e o sid p input H Hc Hp. destruct (history_mono reg sb client l e o sid p input H Hc) as (R & M). apply (m_first _ _ _ _ M). exact Hp.
Qed.
(** What the subscriber of the call sees: the calls above are made on the
    processor (processor.go) behind it. *)
Definition result_of (k : scall) : list (pay + bytes) := match k with SNext v => [inl v] | SError x => [inr x] | SComplete => [] end.
Lemma no_completes : forall a fs, subseq a (answers fs) -> hd_error (flat_map result_of a) = match hd_error a with Some k => hd_error (result_of k) | None => None end.
Proof.
  intros a fs H. destruct a as [|k a]; [reflexivity|]. destruct k; [reflexivity| |reflexivity]. exfalso.
  remember (SComplete :: a) as l eqn:El. remember (answers fs) as g eqn:Eg. assert (Q : ~ In SComplete g).
  { rewrite Eg. clear. unfold answers. rewrite in_flat_map. intros (f & _ & Hf). unfold answer_of in Hf. destruct f as [x|x|x|x|q|x]; [destruct Hf..|destruct (pl_next q); [destruct Hf as [Hf|[]]; discriminate|destruct Hf]|destruct Hf as [Hf|[]]; discriminate]. }
  clear Eg fs. induction H as [|x u v H IH|x u v H IH]; [discriminate|apply IH; auto; intros W; apply Q; now right|]. injection El as -> ->. apply Q. now left.
Qed.
Theorem C60_subscriber_sees_first_answer :
  forall reg sb client l e o sid p input, history reg sb client l e -> In (HCalled o RR sid p input) (ep_trace e) ->
    prompt (recvd sid (after o (ep_trace e))) ->
    forall Q (h : MonoModel.handlers pay bytes Q (MonoModel.pcode pay bytes)) sched,
    let c := MonoModel.mrun MonoModel.proc_source MonoModel.proc_code sched
      (MonoModel.minit MonoModel.pstore0 [MonoModel.ASubscribe h :: MonoProps.results (flat_map result_of (got o (ep_trace e)))]) in
    MonoModel.mc_stack c = [] -> MonoModel.mc_threads c = [] ->
    MonoFacts.outcomes 0 (MonoModel.mc_trace c) =
      match answers (recvd sid (after o (ep_trace e))) with
      | SNext v :: _ => MonoProps.seen h (inl v)
      | SError x :: _ => MonoProps.seen h (inr x)
      | _ => []
      end.
Proof.
  intros reg sb client l e o sid p input H Hc Hp Q h sched c Hk Ht.
  pose proof (MonoProps.C50_processor_delivers_decided pay bytes Q h [] (flat_map result_of (got o (ep_trace e))) sched Hk Ht) as X.
  cbn [MonoProps.results map app] in X. unfold c. etransitivity; [exact X|]. clear X. unfold MonoProps.decided. cbn [MonoProps.last_left MonoProps.last_right].
  pose proof (C60_first_answer_delivered reg sb client l e o sid p input H Hc Hp) as F.
  pose proof (C60_only_answers_on_own_stream reg sb client l e o sid p input H Hc) as S.
  pose proof (no_completes _ _ S) as N. rewrite F in N.
  destruct (answers (recvd sid (after o (ep_trace e)))) as [|k ks]; cbn [hd_error] in N.
  - destruct (flat_map result_of (got o (ep_trace e))); [reflexivity|discriminate].
  - destruct k; cbn in N; destruct (flat_map result_of (got o (ep_trace e))); try discriminate; try (injection N as ->); reflexivity.
Qed.

Definition errf (sid : N) (d : bytes) : frame := FError {| er_stream := sid; er_code := 0; er_data := d |}.
(** Two calls at a time, answered in the other order; one of them with an
    error; an answer to neither is not delivered.  Late answers to the oldest
    stream are (Remove does not remove it, C35), late answers to others are not;
    the subscriber sees the first one only. *)
Definition C60_history : list hop :=
  [XCall RR pay1 false; XCall RR pay1 false; XSubscribe 0; XSubscribe 1; XFrame (item 5 [1] true true); XFrame (errf 3 [2]); XFrame (errf 3 [6]);
   XFrame (item 1 [3] true false); XFrame (item 1 [4] true true); XFrame (item 1 [5] true true)].
Definition C60_end : ep := match hrun registry_init (fun _ => true) true C60_history ep_init with Ok e => e | _ => ep_init end.
Definition C60_handlers : MonoModel.handlers pay bytes N (MonoModel.pcode pay bytes) := MonoModel.Handlers (Some (fun _ _ => [])) None None.
Example C60_example :
  history registry_init (fun _ => true) true C60_history C60_end /\
  In (HCalled 0 RR 1 pay1 false) (ep_trace C60_end) /\ In (HCalled 1 RR 3 pay1 false) (ep_trace C60_end) /\
  prompt (recvd 1 (after 0 (ep_trace C60_end))) /\ prompt (recvd 3 (after 1 (ep_trace C60_end))) /\
  answers (recvd 1 (after 0 (ep_trace C60_end))) =
    [SNext {| py_data := [3]; py_meta := [] |}; SNext {| py_data := [4]; py_meta := [] |}; SNext {| py_data := [5]; py_meta := [] |}] /\
  got 0 (ep_trace C60_end) = answers (recvd 1 (ep_trace C60_end)) /\
  got 1 (ep_trace C60_end) = [SError [2]] /\
  let c := MonoModel.mrun MonoModel.proc_source MonoModel.proc_code (repeat 0%nat 20)
      (MonoModel.minit MonoModel.pstore0 [MonoModel.ASubscribe C60_handlers :: MonoProps.results (flat_map result_of (got 0 (ep_trace C60_end)))]) in
  MonoModel.mc_stack c = [] /\ MonoModel.mc_threads c = [] /\ MonoFacts.outcomes 0 (MonoModel.mc_trace c) = [inl {| py_data := [3]; py_meta := [] |}].
Proof.
  split; [split; [vm_compute; reflexivity|split; [vm_compute; reflexivity|repeat constructor]]|].
  split; [vm_compute; tauto|]. split; [vm_compute; tauto|]. split; [exact I|]. split; [exact I|]. vm_compute. repeat split.
Qed.
(** Without promptness the call may stay unanswered: after a Cancel or a bare
    completion from the peer the stream is forgotten and the subscriber is not
    told; the answer that follows is dropped. *)
Definition C60_unanswered : list hop :=
  [XCall RR pay1 false; XCall RR pay1 false; XSubscribe 0; XSubscribe 1; XFrame (item 3 [] false true); XFrame (item 3 [3] true true)].
Theorem C60_closed_stream_refuted :
  exists l e o sid p, history registry_init (fun _ => true) true l e /\ In (HCalled o RR sid p false) (ep_trace e) /\
    subs o (ep_trace e) = 1%nat /\ answers (recvd sid (after o (ep_trace e))) <> [] /\ got o (ep_trace e) = [].
Proof.
  exists C60_unanswered, (match hrun registry_init (fun _ => true) true C60_unanswered ep_init with Ok e => e | _ => ep_init end), 1, 3, pay1.
  split; [split; [vm_compute; reflexivity|split; [vm_compute; reflexivity|repeat constructor]]|].
  split; [vm_compute; tauto|]. split; [vm_compute; reflexivity|]. split; vm_compute; [discriminate|reflexivity].
Qed.
Print Assumptions C60_one_request_per_subscription.
Print Assumptions C60_only_answers_on_own_stream.
Print Assumptions C60_first_answer_delivered.
Print Assumptions C60_subscriber_sees_first_answer.
Print Assumptions C60_closed_stream_refuted.
