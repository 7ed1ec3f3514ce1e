(** Facts about two joined ends. *)
From Verif Require Import Base BaseFacts FramesModel FramesProofs FramesProps WasmModel InvokeModel InvokeProofs LookupModel TcpModel TcpProofs TcpProps
  HandlerModel HandlerFacts HandlerProps HandlerCallProps HandlerServeProps JointModel.
From Coq Require Import Permutation.

(** ** The connection *)
Lemma read_more_fuel : forall fuel k p rs x, read_frames_all fuel p rs = Some x -> read_frames_all (fuel + k) p rs = Some x.
Proof.
  induction fuel as [|fuel IH]; intros k p rs x H; [discriminate|]. cbn [read_frames_all Nat.add] in *.
  destruct (decoder_read p rs) as [[raw| |e] [p' rs']]; auto. destruct (decode_raw raw) as [f| |e|]; auto.
  destruct (read_frames_all fuel p' rs') as [[l e]|] eqn:E; [|discriminate]. now rewrite (IH k _ _ _ E).
Qed.
Lemma app_prefix : forall A (a b c d : list A), a ++ b = c ++ d -> (exists x, a = c ++ x /\ d = x ++ b) \/ exists x, x <> [] /\ c = a ++ x /\ b = x ++ d.
Proof.
  intros A. induction a as [|x a IH]; intros b c d H.
  - destruct c as [|y c]; [left; exists []; auto|]. right. exists (y :: c). split; [discriminate|]. auto.
  - destruct c as [|y c]; [left; exists (x :: a); auto|]. cbn in H. injection H as -> H. destruct (IH b c d H) as [(z & -> & ->)|(z & Z & -> & ->)]; [left|right]; exists z; auto.
Qed.
Lemma stream_prefix : forall bs x rest, Forall body_ok bs -> x ++ rest = stream_of bs -> exists n tail, x = stream_of (firstn n bs) ++ tail /\ incomplete tail.
Proof.
  induction bs as [|b bs IH]; intros x rest Hb H.
  - exists 0%nat, []. cbn in *. apply app_eq_nil in H. destruct H as [-> _]. split; [reflexivity|apply incomplete_nil].
  - inversion Hb as [|? ? B1 B2]; subst. change (stream_of (b :: bs)) with (framed b ++ stream_of bs) in H.
    apply app_prefix in H. destruct H as [(y & -> & Hy)|(y & Y1 & Y2 & Y3)].
    + destruct (IH y rest B2) as (n & tail & -> & T); [congruence|]. exists (S n), tail. split; [|exact T]. cbn [firstn].
      change (stream_of (b :: firstn n bs)) with (framed b ++ stream_of (firstn n bs)). now rewrite app_assoc.
    + exists 0%nat, x. split; [reflexivity|]. exists b, y. unfold body_ok in B1. repeat split; auto; lia.
Qed.
Lemma reads_prefix : forall fs gs, Forall sendable fs -> reads_from fs gs -> exists n, Forall2 frame_received (firstn n fs) gs.
Proof.
  intros fs gs Hs (writes & chunks & rest & fuel & W & C & R). destruct (sendable_all fs Hs) as (bs & gs0 & H1 & H2 & H3 & H4).
  assert (E : concat (map (@concat N) writes) = stream_of bs).
  { clear -W H1. revert bs H1. induction W as [|f w fs ws W _ IH]; intros bs H1; inversion H1 as [|? b ? bs' B1 B2]; subst; [reflexivity|].
    cbn [map concat]. rewrite (IH _ B2). rewrite W in B1. injection B1 as ->. change (stream_of (b :: bs')) with (framed b ++ stream_of bs'). cbn [map concat]. rewrite app_nil_r. reflexivity. }
  rewrite E in C. destruct (stream_prefix bs (concat chunks) rest H2 C) as (n & tail & T1 & T2). exists n.
  pose proof (read_more_fuel fuel (S (List.length bs)) _ _ _ R) as R'.
  assert (Fst : forall A B (P : A -> B -> Prop) l m k, Forall2 P l m -> Forall2 P (firstn k l) (firstn k m)).
  { clear. intros A B P l m k H. revert k. induction H; intros [|k]; cbn; constructor; auto. }
  assert (Q : read_frames_all (fuel + S (List.length bs)) [] (map Chunk chunks) = Some (firstn n gs0, ConnEof)).
  { rewrite <- (app_nil_r (map Chunk chunks)). apply read_frames_all_ok with (bs := firstn n bs) (tail := tail); auto.
    - now left.
    - apply Forall_forall. intros z Hz. rewrite Forall_forall in H2. apply H2. rewrite <- (firstn_skipn n bs). apply in_app_iff. now left.
    - rewrite firstn_length. lia. }
  rewrite Q in R'. injection R' as <-. apply Fst. exact H4.
Qed.
Lemma received_stream : forall f g, frame_received f g -> frame_stream g = frame_stream f \/ exists s, f = FSetup s.
Proof.
  intros f g H. destruct f, g; cbn in H; try contradiction; subst; auto; try (left; apply H); right; eauto.
Qed.
Lemma Forall2_in : forall A B (P : A -> B -> Prop) l m y, Forall2 P l m -> In y m -> exists x, In x l /\ P x y.
Proof. induction 1; intros []; subst; firstorder. Qed.
Lemma Forall2_in_l : forall A B (P : A -> B -> Prop) l m x, Forall2 P l m -> In x l -> exists y, In y m /\ P x y.
Proof. induction 1; intros []; subst; firstorder. Qed.
Lemma firstn_in : forall A n (l : list A) x, In x (firstn n l) -> In x l.
Proof. intros A n l x H. rewrite <- (firstn_skipn n l). apply in_app_iff. now left. Qed.

(** ** What an end sends *)
Record sent_ok (client : bool) (e : ep) : Prop := {
  st_jobs : forall k r, In (JHandle k r) (ep_jobs e) -> In (k, r) (requests (ep_trace e));
  st_objs : forall o k sid a b, ep_obj o e = Some (OReq k sid a b) -> exists r, In (k, r) (requests (ep_trace e)) /\ rq_stream r = sid;
  st_sent : forall f, In (HSent f) (ep_trace e) ->
    match f with FRequest r => N.odd (rq_stream r) = client
    | FPayload p => N.odd (pl_stream p) = client
    | FSetup _ => False
    | FError _ => True
    | _ => N.odd (frame_stream f) = client \/ exists r, In (RC, r) (requests (ep_trace e)) /\ rq_stream r = frame_stream f
    end }.
Lemma sent_ok_init : forall client, sent_ok client ep_init.
Proof.
  intros client. constructor; cbn; try tauto. intros o k sid a b H. unfold ep_obj in H. cbn in H. destruct (N.to_nat o); discriminate.
Qed.
Lemma sent_ok_step : forall client e e' ev, sent_ok client e -> ep_trace e' = ep_trace e ++ ev ->
  (forall k r, In (JHandle k r) (ep_jobs e') -> In (JHandle k r) (ep_jobs e) \/ In (k, r) (requests ev)) ->
  (forall o k sid a b, ep_obj o e' = Some (OReq k sid a b) -> (exists a b, ep_obj o e = Some (OReq k sid a b)) \/ exists r, In (k, r) (requests (ep_trace e')) /\ rq_stream r = sid) ->
  (forall f, In (HSent f) ev -> match f with FRequest r => N.odd (rq_stream r) = client
    | FPayload p => N.odd (pl_stream p) = client
    | FSetup _ => False
    | FError _ => True
    | _ => N.odd (frame_stream f) = client \/ exists r, In (RC, r) (requests (ep_trace e)) /\ rq_stream r = frame_stream f
    end) -> sent_ok client e'.
Proof.
  intros client e e' ev [A B C] T HA HB HC.
  assert (I : forall k r, In (k, r) (requests (ep_trace e)) -> In (k, r) (requests (ep_trace e'))).
  { intros k r H. rewrite T, requests_app. apply in_app_iff. now left. }
  constructor.
  - intros k r H. destruct (HA k r H) as [H1|H1]; [now apply I, A|]. rewrite T, requests_app. apply in_app_iff. now right.
  - intros o k sid a b H. destruct (HB o k sid a b H) as [(a' & b' & H1)|H1]; [|exact H1]. destruct (B _ _ _ _ _ H1) as (r & R1 & R2). eauto.
  - intros f H. rewrite T in H. apply in_app_iff in H.
    assert (Y := match H with or_introl a => C f a | or_intror b => HC f b end). clear H.
    destruct f; auto; destruct Y as [Y|(r & R1 & R2)]; auto; right; eauto.
Qed.

Section SentOk.
Variable reg : registry.
Variable subscribable : N -> bool.
Variable client : bool.
Lemma sent_ok_view : forall x e e', good client e -> good client e' -> sent_ok client e -> (is_call x = true -> ep_ids e < 1073741823) ->
  (forall r, x = XFrame (FRequest r) -> N.odd (rq_stream r) = negb client) -> view reg subscribable client x e e' -> sent_ok client e'.
Proof.
  intros x e e' G G' S Hc Hr V.
  assert (Loc : forall o y i, ep_obj o e = Some y -> local_id y = Some i -> N.odd i = client).
  { intros o y i Ho Hl. destruct (g_loc client e G o _ _ Ho Hl) as (q & _ & ->). apply nth_id_odd. }
  assert (Same : forall e1 ev, ep_trace e1 = ep_trace e ++ ev -> ep_jobs e1 = ep_jobs e -> ep_objs e1 = ep_objs e -> (forall f, In (HSent f) ev -> False) -> sent_ok client e1).
  { intros e1 ev T J O N. apply (sent_ok_step client e e1 ev S T).
    - intros k r. rewrite J. auto.
    - intros o k sid a b. unfold ep_obj. rewrite O. eauto.
    - intros f Hf. destruct (N f Hf). }
  assert (Drop : forall i k' r', In (JHandle k' r') (ep_jobs (drop_job i e)) -> In (JHandle k' r') (ep_jobs e)).
  { intros i k' r' H. unfold drop_job in H. cbn [ep_jobs] in H. apply in_app_iff in H. rewrite <- (firstn_skipn (Datatypes.S i) (ep_jobs e)). apply in_app_iff.
    destruct H as [H|H]; [left|right; exact H]. apply firstn_in with (n := i). rewrite firstn_firstn, Nat.min_l by lia. exact H. }
  destruct V as [x e Hx|p input e|k p input b y e Hk|o y i e Ho Hl|o n s s' l e Ho Hs|o n sid a e Ho|o s e Ho|o sid a e Ho|o ev s e Ho|o sid a b e Ho
    |s t ev e Hev|r k e Hk|r ev e Hk Hev|r js e Hjs Hm|f e Hf Hg|f o y e Hf Hg Ho Hsk|i k r e e' Hj He|i o n e Hj|i o s e Hj Ho|i o e Hj Ho].
  - exact S.
  - eapply (sent_ok_step client e _ [_] S); [reflexivity|auto|eauto|]. intros f [E|[]]. injection E as <-. apply nth_id_odd.
  - eapply (sent_ok_step client e _ [_] S); [reflexivity|auto| |].
    + intros o k' sid a b' Ho. left. change (ep_obj o (ep_new y (with_ids (ep_ids e + 1) e)) = Some (OReq k' sid a b')) in Ho. apply obj_new in Ho.
      destruct Ho as [Ho|[_ E]]; [eauto|]. destruct Hk as [(_ & _ & ->)|[(_ & _ & ->)|(_ & _ & ->)]]; discriminate.
    + intros f [E|[]]. discriminate.
  - eapply (sent_ok_step client e _ (HSubscribed o :: _) S); [reflexivity|auto|eauto|]. intros f [E|Hf]; [discriminate|].
    destruct y; [|destruct Hf..]. destruct Hf as [E|[]]. injection E as <-. exact (Loc _ _ _ Ho eq_refl).
  - pose proof (Loc _ _ _ Ho eq_refl) as L. eapply (sent_ok_step client e _ (HAsked o n :: _) S); [reflexivity|auto| |].
    + intros o' k sid a b Ho'. left. change (ep_obj o' (ep_set o (OFlux s') e) = Some (OReq k sid a b)) in Ho'.
      destruct (N.eq_dec o o') as [<-|Ne]; [rewrite (obj_set_same o _ e _ Ho) in Ho'; discriminate|]. rewrite obj_set_other in Ho' by exact Ne. eauto.
    + intros f [E|Hf]; [discriminate|]. apply in_map_iff in Hf. destruct Hf as (g & E & Hf). injection E as ->. unfold sf_request in Hs.
      destruct (sf_complete s); [injection Hs as _ <-; destruct Hf|]. destruct (sf_first s); injection Hs as _ <-; destruct Hf as [<-|[]]; [exact L|left; exact L].
  - eapply (sent_ok_step client e _ [_] S); [reflexivity|auto|eauto|]. intros f [E|[]]. injection E as <-. right.
    exact (st_objs client e S _ _ _ _ _ Ho).
  - eapply (sent_ok_step client e _ (HDropped o :: _) S); [reflexivity|auto|eauto|]. intros f [E|Hf]; [discriminate|].
    destruct Hf as [E|[]]. injection E as <-. left. exact (Loc _ _ _ Ho eq_refl).
  - eapply (sent_ok_step client e _ [_] S); [reflexivity|auto|eauto|]. intros f [E|[]]. injection E as <-. right.
    exact (st_objs client e S _ _ _ _ _ Ho).
  - pose proof (Loc _ _ _ Ho eq_refl) as L. eapply (sent_ok_step client e _ (HFed o ev :: _) S); [reflexivity|auto|eauto|]. intros f [E|Hf]; [discriminate|].
    apply in_map_iff in Hf. destruct Hf as (g & E & Hf). injection E as ->. unfold sf_input in Hf. destruct (sf_in s && negb (sf_first s)); [|destruct Hf].
    destruct Hf as [<-|[]]. destruct ev; [exact L|exact L|exact I].
  - apply (sent_ok_step client e _ [] S); [symmetry; apply app_nil_r|auto| |intros f []].
    intros o' k sid' a' b' Ho'. left. destruct (N.eq_dec o o') as [<-|Ne]; [|rewrite obj_set_other in Ho' by exact Ne; eauto].
    rewrite (obj_set_same o _ e _ Ho) in Ho'. injection Ho' as <- <- <- <-. eauto.
  - apply (Same _ (HRecv (FSetup s) :: ev)); try reflexivity. intros f [E|Hf]; [discriminate|]. destruct Hev as [->| ->]; [destruct Hf|destruct Hf as [E|[]]; discriminate].
  - eapply (sent_ok_step client e _ [_] S); [reflexivity| |eauto|intros f [E|[]]; discriminate].
    intros k' r' Hj. apply in_app_iff in Hj. destruct Hj as [Hj|[E|[]]]; [now left|]. injection E as <- <-. right. cbn. rewrite <- kind_code_of, Hk. now left.
  - apply (Same _ (HRecv (FRequest r) :: ev)); try reflexivity. intros f [E|Hf]; [discriminate|]. destruct Hev as [->| ->]; [destruct Hf|destruct Hf as [E|[]]; discriminate].
  - eapply (sent_ok_step client e _ [_] S); [reflexivity| |eauto|intros f [E|[]]; discriminate].
    intros k' r' Hj. apply in_app_iff in Hj. destruct Hj as [Hj|Hj]; [now left|]. destruct Hjs as [->|(o & _ & ->)]; [destruct Hj|destruct Hj as [E|[]]; discriminate].
  - apply (Same _ [HRecv f; HRejected]); try reflexivity. intros g [E|[E|[]]]; discriminate.
  - apply (sent_ok_step client e _ (HRecv f :: map (HCall o) (passed y (calls_of f))) S).
    + destruct (closes f); reflexivity.
    + intros k r Hj. left. assert (Hj' : In (JHandle k r) (ep_jobs e ++ settles o y (calls_of f))) by (destruct (closes f); exact Hj).
      apply in_app_iff in Hj'. destruct Hj' as [Hj'|Hj']; [exact Hj'|]. exfalso. unfold settles in Hj'. destruct y; [destruct Hj'| |destruct Hj'].
      apply in_map_iff in Hj'. destruct Hj' as (z & E & _). discriminate.
    + intros o' k sid a b Ho'. left. assert (Ho2 : ep_obj o' e = Some (OReq k sid a b)) by (destruct (closes f); exact Ho'). eauto.
    + intros g [E|Hg']; [discriminate|]. apply in_map_iff in Hg'. destruct Hg' as (z & E & _). discriminate.
  - pose proof (handle_request_eq _ _ _ _ _ _ He) as E. set (e1 := drop_job i e) in *.
    pose proof (Drop i) as J. fold e1 in J.
    pose proof (st_jobs client e S _ _ (nth_error_In _ _ Hj)) as R.
    apply (sent_ok_step client e e' (dispatched reg k r (len (ep_objs e1))) S).
    + rewrite E. destruct (accepted reg k r && opens k); reflexivity.
    + intros k' r' H. left. apply J. rewrite E in H. destruct (accepted reg k r && opens k); exact H.
    + intros o k' sid a b Ho. assert (T : ep_trace e' = ep_trace e ++ dispatched reg k r (len (ep_objs e1))) by (rewrite E; destruct (accepted reg k r && opens k); reflexivity).
      rewrite T, requests_app. rewrite E in Ho. destruct (accepted reg k r && opens k).
      * change (ep_obj o (ep_new (OReq k (rq_stream r) (has_sub k) false) e1) = Some (OReq k' sid a b)) in Ho. apply obj_new in Ho. destruct Ho as [Ho|[_ Eq]]; [left; eauto|].
        injection Eq as -> -> _ _. right. exists r. split; [|reflexivity]. apply in_app_iff. now left.
      * left. eauto.
    + intros f Hf. unfold dispatched in Hf. destruct (len (rq_metadata r) <? 8); [destruct Hf as [X|[]]; injection X as <-; exact I|].
      destruct (do_get k reg _); [|destruct Hf as [X|[]]; injection X as <-; exact I]. exfalso. destruct k; cbn in Hf; repeat (destruct Hf as [X|Hf]; [discriminate|]); exact Hf.
  - eapply (sent_ok_step client e _ [_] S); [reflexivity|intros k r H; left; exact (Drop i k r H)|eauto|intros f [E|[]]; discriminate].
  - eapply (sent_ok_step client e _ [_] S); [reflexivity|intros k r H; left; exact (Drop i k r H)| |intros f [E|[]]; discriminate].
    intros o' k sid a b Ho'. left. change (ep_obj o' (ep_set o (OFlux (sf_on_complete s)) e) = Some (OReq k sid a b)) in Ho'.
    destruct (N.eq_dec o o') as [<-|Ne]; [rewrite (obj_set_same o _ e _ Ho) in Ho'; discriminate|]. rewrite obj_set_other in Ho' by exact Ne. eauto.
  - apply (sent_ok_step client e _ [] S); [symmetry; apply app_nil_r|intros k r H; left; exact (Drop i k r H)|eauto|intros f []].
Qed.
End SentOk.

Lemma history_sent : forall reg sb client l e, history reg sb client l e -> sent_ok client e.
Proof.
  intros reg sb client l e (H & C & P). apply (run_inv reg sb client (sent_ok client) (sent_ok_init client) (sent_ok_view reg sb client) l e); auto. lia.
Qed.

(** ** The joint invariant *)
Lemma sent_by_app : forall t u, sent_by (t ++ u) = sent_by t ++ sent_by u.
Proof. intros. apply flat_map_app. Qed.
Lemma received_app : forall t u, received (t ++ u) = received t ++ received u.
Proof. intros. apply flat_map_app. Qed.
Lemma in_sent_by : forall f t, In f (sent_by t) <-> In (HSent f) t.
Proof.
  intros f t. unfold sent_by. rewrite in_flat_map. split.
  - intros (x & H & Hx). destruct x; try (destruct Hx; fail). destruct Hx as [->|[]]. exact H.
  - intros H. exists (HSent f). split; [exact H|now left].
Qed.
Lemma in_received : forall f t, In f (received t) <-> In (HRecv f) t.
Proof.
  intros f t. unfold received. rewrite in_flat_map. split.
  - intros (x & H & Hx). destruct x; try (destruct Hx; fail). destruct Hx as [->|[]]. exact H.
  - intros H. exists (HRecv f). split; [exact H|now left].
Qed.
Lemma view_grows : forall reg sb c x e e', view reg sb c x e e' -> exists ev, ep_trace e' = ep_trace e ++ ev /\ received ev = match x with XFrame f => [f] | _ => [] end.
Proof.
  intros reg sb client x e e' V.
  assert (Z : forall l : list frame, received (map HSent l) = []) by (induction l; auto).
  destruct V as [x e Hx|p input e|k p input b y e Hk|o y i e Ho Hl|o n s s' l e Ho Hs|o n sid a e Ho|o s e Ho|o sid a e Ho|o ev s e Ho|o sid a b e Ho
    |s t ev e Hev|r k e Hk|r ev e Hk Hev|r js e Hjs Hm|f e Hf Hg|f o y e Hf Hg Ho Hsk|i k r e e' Hj He|i o n e Hj|i o s e Hj Ho|i o e Hj Ho];
    try (eexists; split; [reflexivity|reflexivity]).
  - exists []. split; [symmetry; apply app_nil_r|]. destruct x; try reflexivity. now destruct (Hx f).
  - eexists; split; [reflexivity|]. destruct y; reflexivity.
  - eexists; split; [reflexivity|]. apply Z.
  - eexists; split; [reflexivity|]. apply Z.
  - exists []. split; [symmetry; apply app_nil_r|reflexivity].
  - eexists; split; [reflexivity|]. destruct Hev as [->| ->]; reflexivity.
  - eexists; split; [reflexivity|]. destruct Hev as [->| ->]; reflexivity.
  - exists (HRecv f :: map (HCall o) (passed y (calls_of f))). split; [destruct (closes f); reflexivity|]. cbn [received flat_map app]. f_equal.
    induction (passed y (calls_of f)); auto.
  - pose proof (handle_request_eq _ _ _ _ _ _ He) as E. exists (dispatched reg k r (len (ep_objs (drop_job i e)))). split; [rewrite E; destruct (accepted reg k r && opens k); reflexivity|].
    unfold dispatched. destruct (len (rq_metadata r) <? 8); [reflexivity|]. destruct (do_get k reg _); [destruct k|]; reflexivity.
  - exists []. split; [symmetry; apply app_nil_r|reflexivity].
Qed.

Section JointInv.
Variable exported : bool -> list reg_call.
Variable subscribable : bool -> N -> bool.
Variable behaves : bool -> N -> pay -> pay + bytes -> Prop.
Definition other (c : bool) (j : joint) : side := at_side (negb c) j.
Definition trace_of (c : bool) (j : joint) : list hevent := ep_trace (sd_ep (at_side c j)).
(** Everything that was written has a reason. *)
Definition reason (c : bool) (s : side) (f : frame) : Prop :=
  In (HSent f) (ep_trace (sd_ep s)) \/
  (exists sid h p r, In (HInvoke RR sid h p) (ep_trace (sd_ep s)) /\ behaves c h p r /\ f = answer_frame sid r) \/
  (exists k sid h p, In (HInvoke k sid h p) (ep_trace (sd_ep s)) /\ (k = RS \/ k = RC) /\ frame_stream f = sid /\ match f with FPayload _ | FError _ => True | _ => False end).
Definition usable (j : joint) : Prop := forall c, Forall sendable (sd_out (at_side c j)) /\ calls (sd_ops (at_side c j)) < 2 ^ 30.
Record joint_ok (j : joint) : Prop := {
  jo_run : forall c, history (reg_run (exported c)) (subscribable c) c (sd_ops (at_side c j)) (sd_ep (at_side c j));
  jo_out : forall c f, In f (sd_out (at_side c j)) -> reason c (at_side c j) f;
  jo_sent : forall c f, In (HSent f) (trace_of c j) -> In f (sd_out (at_side c j));
  jo_recv : forall c, exists n, Forall2 frame_received (firstn n (sd_out (at_side (negb c) j))) (received (trace_of c j)) }.
Lemma at_put_same : forall c s j, at_side c (put_side c s j) = s.
Proof. intros [] s j; reflexivity. Qed.
Lemma at_put_other : forall c s j, at_side (negb c) (put_side c s j) = at_side (negb c) j.
Proof. intros [] s j; reflexivity. Qed.
Lemma side_cases : forall c d : bool, d = c \/ d = negb c.
Proof. intros [] []; auto. Qed.
Lemma usable_before : forall j j', jstep exported subscribable behaves j j' -> usable j' -> usable j.
Proof.
  intros j j' S U d. specialize (U d). destruct S as [c x j e' Hx H|c g j e' Hr H|c sid h p r j Hi Hb|c k sid h p f j Hi Hk Hs Hf];
    (destruct (side_cases c d) as [->| ->]; [rewrite at_put_same in U|rewrite at_put_other in U; exact U]); destruct U as [U1 U2]; cbn [advance write sd_out sd_ops] in U1, U2;
    apply Forall_app in U1; destruct U1 as [U1 _]; (split; [exact U1|]); rewrite ?calls_app in U2; lia.
Qed.
Lemma firstn_app_more : forall A n (l m : list A), exists k, firstn k (l ++ m) = firstn n l.
Proof.
  intros A n l m. exists (Nat.min n (List.length l)). rewrite firstn_app. rewrite (proj2 (Nat.sub_0_le _ _)) by apply Nat.le_min_r.
  cbn [firstn]. rewrite app_nil_r. rewrite <- firstn_firstn. now rewrite firstn_all.
Qed.
Lemma joint_step : forall j j', joint_ok j -> jstep exported subscribable behaves j j' -> usable j' -> joint_ok j'.
Proof.
  intros j j' [R O S V] St U.
  pose proof (usable_before j j' St U) as U0.
  (* an operation at one side *)
  assert (Op : forall c x e', hstep (reg_run (exported c)) (subscribable c) c x (sd_ep (at_side c j)) = Ok e' ->
    (exists n, Forall2 frame_received (firstn n (sd_out (at_side (negb c) j))) (received (trace_of c j) ++ match x with XFrame f => [f] | _ => [] end)) ->
    usable (put_side c (advance x e' (at_side c j)) j) -> joint_ok (put_side c (advance x e' (at_side c j)) j)).
  { intros c x e' H Hr Us. set (s := at_side c j) in *. destruct (Us c) as [_ U2]. rewrite at_put_same in U2. cbn [advance sd_ops] in U2.
    destruct (R c) as (R1 & R2 & R3). fold s in R1, R2, R3. change (2 ^ 30) with 1073741824 in R2, U2.
    assert (Q : forall r, x = XFrame (FRequest r) -> N.odd (rq_stream r) = negb c).
    { intros r ->. destruct Hr as (n & Hn). destruct (Forall2_in _ _ _ _ _ (FRequest r) Hn) as (f & F1 & F2); [apply in_app_iff; right; now left|].
      apply firstn_in in F1. assert (F3 : exists q, f = FRequest q /\ request_received q r) by (destruct f; cbn in F2; try contradiction; eauto; subst; eauto).
      destruct F3 as (q & -> & Hq). destruct Hq as (_ & Hq & _). rewrite Hq.
      destruct (O _ _ F1) as [X|[(sid & h & p & o & _ & _ & X)|(k & sid & h & p & _ & _ & _ & [])]]; [|destruct o; discriminate].
      exact (st_sent _ _ (history_sent _ _ _ _ _ (R (negb c))) _ X). }
    assert (Hist : history (reg_run (exported c)) (subscribable c) c (sd_ops s ++ [x]) e').
    { split; [|split; [exact U2|]].
      - rewrite hrun_app. rewrite R1. cbn [bind hrun]. rewrite H. reflexivity.
      - apply proper_app. split; [exact R3|]. unfold proper_peer, request_ids. destruct x as [| | | | | |f|]; try constructor. destruct f; repeat constructor. now apply Q. }
    destruct (good_run (reg_run (exported c)) (subscribable c) c (sd_ops s) ep_init (sd_ep s) (good_init c) ltac:(cbn [ep_init ep_ids]; lia) R3 R1) as [Gd Ids].
    cbn [ep_init ep_ids] in Ids.
    assert (Vw : view (reg_run (exported c)) (subscribable c) c x (sd_ep s) e').
    { apply hstep_view; auto. intros Hx. rewrite calls_app, calls_cons, Hx in U2. lia. }
    destruct (view_grows _ _ _ _ _ _ Vw) as (ev & T & Rv).
    assert (Sk : skipn (List.length (ep_trace (sd_ep s))) (ep_trace e') = ev).
    { rewrite T. rewrite skipn_app, skipn_all, Nat.sub_diag. reflexivity. }
    assert (Gr : forall f, reason c s f -> reason c (advance x e' s) f).
    { unfold reason. cbn [advance sd_ep]. rewrite T. intros f [X|[(sid & h & p & o & X & Y)|(k & sid & h & p & X & Y)]].
      - left. apply in_app_iff. now left.
      - right. left. exists sid, h, p, o. split; [|exact Y]. apply in_app_iff. now left.
      - right. right. exists k, sid, h, p. split; [|exact Y]. apply in_app_iff. now left. }
    assert (Out : sd_out (advance x e' s) = sd_out s ++ sent_by ev) by (unfold advance; cbn [sd_out]; now rewrite Sk).
    constructor.
    - intros d. destruct (side_cases c d) as [->| ->]; [rewrite at_put_same; exact Hist|rewrite at_put_other; apply R].
    - intros d f. destruct (side_cases c d) as [->| ->]; [rewrite at_put_same|rewrite at_put_other; apply O]. rewrite Out. intros Hf. apply in_app_iff in Hf.
      destruct Hf as [Hf|Hf]; [apply Gr, O, Hf|]. left. cbn [advance sd_ep]. rewrite T. apply in_app_iff. right. now apply in_sent_by.
    - intros d f. unfold trace_of. destruct (side_cases c d) as [->| ->]; [rewrite at_put_same|rewrite at_put_other; apply S]. rewrite Out. cbn [advance sd_ep]. rewrite T.
      intros Hf. apply in_app_iff in Hf. apply in_app_iff. destruct Hf as [Hf|Hf]; [left; now apply S|right; now apply in_sent_by].
    - intros d. unfold trace_of. destruct (side_cases c d) as [->| ->].
      + rewrite at_put_other, at_put_same. cbn [advance sd_ep]. rewrite T, received_app, Rv. exact Hr.
      + rewrite at_put_other, negb_involutive, at_put_same, Out. destruct (V (negb c)) as (n & Hn). rewrite negb_involutive in Hn. fold s in Hn.
        destruct (firstn_app_more _ n (sd_out s) (sent_by ev)) as (m & Hm). exists m. now rewrite Hm. }
  assert (Wr : forall c f, reason c (at_side c j) f -> joint_ok (put_side c (write f (at_side c j)) j)).
  { intros c f Hf. set (s := at_side c j) in *. constructor.
    - intros d. destruct (side_cases c d) as [->| ->]; [rewrite at_put_same; exact (R c)|rewrite at_put_other; apply R].
    - intros d g. destruct (side_cases c d) as [->| ->]; [rewrite at_put_same|rewrite at_put_other; apply O]. cbn [write sd_out]. intros Hg. apply in_app_iff in Hg.
      destruct Hg as [Hg|[<-|[]]]; [exact (O c g Hg)|exact Hf].
    - intros d g. unfold trace_of. destruct (side_cases c d) as [->| ->]; [rewrite at_put_same|rewrite at_put_other; apply S]. cbn [write sd_out sd_ep]. intros Hg.
      apply in_app_iff. left. now apply S.
    - intros d. unfold trace_of. destruct (side_cases c d) as [->| ->].
      + rewrite at_put_other, at_put_same. exact (V c).
      + rewrite at_put_other, negb_involutive, at_put_same. cbn [write sd_out]. destruct (V (negb c)) as (n & Hn). rewrite negb_involutive in Hn. fold s in Hn.
        destruct (firstn_app_more _ n (sd_out s) [f]) as (m & Hm). exists m. now rewrite Hm. }
  destruct St as [c x j e' Hx H|c g j e' Hr H|c sid h p r j Hi Hb|c k sid h p f j Hi Hk Hs Hf].
  - apply Op; auto. destruct x; try (rewrite app_nil_r; exact (V c)). now destruct (Hx f).
  - apply Op; auto. apply reads_prefix; [|exact Hr]. apply (U0 (negb c)).
  - apply Wr. right. left. exists sid, h, p, r. auto.
  - apply Wr. right. right. exists k, sid, h, p. auto.
Qed.
Lemma joint_ok_init : joint_ok joint_init.
Proof.
  constructor.
  - intros []; (split; [reflexivity|split; [reflexivity|constructor]]).
  - intros [] f [].
  - intros [] f [].
  - intros []; exists 0%nat; constructor.
Qed.
Lemma joint_inv : forall j, jruns exported subscribable behaves j -> usable j -> joint_ok j.
Proof.
  intros j H. induction H as [|j j' H IH St]; intros U; [apply joint_ok_init|]. apply (joint_step j j'); auto. apply IH. now apply (usable_before j j').
Qed.

(** A request that one end handles was sent by the other. *)
Lemma request_was_sent : forall j c k r, joint_ok j -> In (k, r) (requests (trace_of (negb c) j)) ->
  kind_code (rq_type r) = Some k /\ exists q, In (HSent (FRequest q)) (trace_of c j) /\ request_received q r.
Proof.
  intros j c k r J H. unfold requests in H. apply in_flat_map in H. destruct H as (x & Hx & H). destruct x; try (destruct H; fail). destruct f as [|r'| | | |]; try (destruct H; fail).
  destruct (kind_code (rq_type r')) as [k'|] eqn:Ek; [|destruct H]. destruct H as [E|[]]. injection E as -> ->. split; [exact Ek|].
  destruct (jo_recv j J (negb c)) as (n & Hn). rewrite negb_involutive in Hn. apply in_received in Hx.
  destruct (Forall2_in _ _ _ _ _ _ Hn Hx) as (f & F1 & F2). apply firstn_in in F1.
  destruct f as [|q| | | |]; try (cbn in F2; contradiction). exists q. split; [|exact F2].
  destruct (jo_out j J _ _ F1) as [X|[(sid & h & p & o & _ & _ & X)|(k' & sid & h & p & _ & _ & _ & [])]]; [exact X|destruct o; discriminate].
Qed.
(** What one end writes on the streams of the other. *)
Inductive peer_frame (ex : list reg_call) (b : N -> pay -> pay + bytes -> Prop) (reqs : list (kind * request)) (f : frame) : Prop :=
| PControl r : In (RC, r) reqs -> rq_stream r = frame_stream f -> match f with FRequestN _ | FCancel _ => True | _ => False end -> peer_frame ex b reqs f
| PRefused k r text : In (k, r) reqs -> rq_stream r = frame_stream f -> reaction ex (k, r) = Refused (frame_stream f) text -> answer_of f = Some (SError text) -> peer_frame ex b reqs f
| PAnswer r h p o : In (RR, r) reqs -> rq_stream r = frame_stream f -> reaction ex (RR, r) = Invoked RR (frame_stream f) h p -> b h p o -> f = answer_frame (frame_stream f) o -> peer_frame ex b reqs f
| PStream k r h p : In (k, r) reqs -> rq_stream r = frame_stream f -> k = RS \/ k = RC -> reaction ex (k, r) = Invoked k (frame_stream f) h p ->
    match f with FPayload _ | FError _ => True | _ => False end -> peer_frame ex b reqs f.
Lemma reply_reason : forall j c x, (forall c, len (exported c) < 2 ^ 32) -> joint_ok j -> In x (replies c (trace_of c j)) ->
  exists k r, In (k, r) (requests (trace_of c j)) /\ reaction (exported c) (k, r) = x.
Proof.
  intros j c x L J H. pose proof (C61_every_request_served_once _ _ _ _ _ (L c) (jo_run j J c)) as P.
  assert (X : In x (map (reaction (exported c)) (requests (trace_of c j)))).
  { eapply Permutation_in; [exact P|]. apply in_app_iff. now left. }
  apply in_map_iff in X. destruct X as ([k r] & X1 & X2). eauto.
Qed.
Lemma reaction_invoked : forall ex k r k' sid h p, reaction ex (k, r) = Invoked k' sid h p -> k' = k /\ rq_stream r = sid.
Proof.
  intros ex k r k' sid h p H. unfold reaction in H. destruct (len (rq_metadata r) <? 8); [discriminate|]. destruct (nth_error _ _) as [[i h']|]; [|discriminate]. injection H as <- <- _ _. auto.
Qed.
Lemma reaction_refused : forall ex k r sid text, reaction ex (k, r) = Refused sid text -> rq_stream r = sid.
Proof.
  intros ex k r sid text H. unfold reaction in H. destruct (len (rq_metadata r) <? 8); [injection H as <- _; auto|]. destruct (nth_error _ _) as [[i h']|]; [discriminate|]. injection H as <- _. auto.
Qed.
Lemma invoked_reply : forall c k sid h p t, In (HInvoke k sid h p) t -> In (Invoked k sid h p) (replies c t).
Proof. intros. unfold replies. apply in_flat_map. eexists. split; [eassumption|]. now left. Qed.
Lemma on_peer_stream : forall j c f, (forall c, len (exported c) < 2 ^ 32) -> joint_ok j -> In f (sd_out (at_side (negb c) j)) -> N.odd (frame_stream f) = c ->
  peer_frame (exported (negb c)) (behaves (negb c)) (requests (trace_of (negb c) j)) f.
Proof.
  intros j c f L J H Hc. destruct (jo_out j J _ _ H) as [X|[(sid & h & p & o & X & B & ->)|(k & sid & h & p & X & K & S & M)]].
  - pose proof (st_sent _ _ (history_sent _ _ _ _ _ (jo_run j J (negb c))) _ X) as Y. destruct f as [s|r|r|x|p|x]; cbn [frame_stream] in *.
    + destruct Y.
    + rewrite Y in Hc. now destruct c.
    + destruct Y as [Y|(r' & R1 & R2)]; [rewrite Y in Hc; now destruct c|]. eapply PControl; eauto; exact I.
    + destruct Y as [Y|(r' & R1 & R2)]; [rewrite Y in Hc; now destruct c|]. eapply PControl; eauto; exact I.
    + rewrite Y in Hc. now destruct c.
    + destruct (reply_reason j (negb c) (Refused (er_stream x) (er_data x)) L J) as (k & r & R1 & R2).
      { unfold replies. apply in_flat_map. exists (HSent (FError x)). split; [exact X|]. rewrite Hc. destruct c; now left. }
      eapply PRefused; [exact R1|exact (reaction_refused _ _ _ _ _ R2)|exact R2|reflexivity].
  - destruct (reply_reason j (negb c) (Invoked RR sid h p) L J (invoked_reply _ _ _ _ _ _ X)) as (k & r & R1 & R2).
    destruct (reaction_invoked _ _ _ _ _ _ _ R2) as [<- E]. assert (F : frame_stream (answer_frame sid o) = sid) by (destruct o; reflexivity).
    eapply PAnswer; rewrite ?F; eauto.
  - destruct (reply_reason j (negb c) (Invoked k sid h p) L J (invoked_reply _ _ _ _ _ _ X)) as (k' & r & R1 & R2).
    destruct (reaction_invoked _ _ _ _ _ _ _ R2) as [<- E]. eapply PStream; rewrite ?S; eauto.
Qed.
End JointInv.
