(** Invariant of a transport session (reader and dispatcher goroutines). *)
From Verif Require Import Base BaseFacts FramesModel BufferModel BufferProofs TcpModel.

(** The frames among the results of [conn.Read]. *)
Fixpoint frames_of (rs : list conn_read) : list frame :=
  match rs with
  | [] => []
  | ConnFrame f :: rs' => f :: frames_of rs'
  | _ :: rs' => frames_of rs'
  end.
Lemma frames_of_app : forall a b, frames_of (a ++ b) = frames_of a ++ frames_of b.
Proof. induction a as [|[f| | |] a IH]; intros b; cbn; rewrite ?IH; auto. Qed.

Lemma frames_of_map : forall l, frames_of (map ConnFrame l) = l.
Proof. induction l; cbn; congruence. Qed.

Definition loading (d : disp_phase) : bool := match d with DLoad => true | _ => false end.
Definition past (r : reader_phase) : bool := match r with RDisposed | RDone => true | _ => false end.
Definition running (r : reader_phase) : bool := match r with RFirst | RLoop => true | _ => false end.

Record sess_inv (server : bool) (input : list conn_read) (s : session) : Prop := {
  si_server : ss_server s = server;
  si_live : live_inv (ss_buf s) (loading (ss_disp s));
  si_ddone : ss_disp s = DDone -> held (ss_buf s) = [] /\ bf_closed (ss_buf s) = true;
  si_disposed : bf_disposed (ss_buf s) = past (ss_reader s);
  si_first : ss_reader s = RFirst -> ss_delivered s = [] /\ ss_read s = [] /\ held (ss_buf s) = [];
  si_queue :
    (ss_delivered s ++ held (ss_buf s) = ss_read s
     /\ (server = true -> match ss_read s with [] => running (ss_reader s) = true -> ss_reader s = RFirst
                          | f :: _ => is_setup f = true end))
    \/ (server = true /\ ss_delivered s = [] /\ held (ss_buf s) = []
        /\ (exists f, ss_read s = [f] /\ is_setup f = false) /\ running (ss_reader s) = false);
  si_input : exists err, input = map ConnFrame (ss_read s) ++ err ++ ss_input s
     /\ (err = [] \/ (running (ss_reader s) = false
          /\ (err = [ConnEof] \/ exists e, err = [ConnErr e])));
  si_closed : ss_conn_closed s = true <-> ss_reader s = RDone;
  si_done : ss_reader s = RDone -> ss_disp s = DDone }.

Lemma sess_inv_new : forall server input, sess_inv server input (session_new server input).
Proof.
  intros. constructor; cbn; auto; try discriminate.
  - apply live_new.
  - exists []. auto.
  - split; discriminate.
Qed.

Lemma put_step : forall (b : buf frame) f l, live_inv b l -> bf_disposed b = false ->
  exists b', buf_put f b = Ok (true, b') /\ live_inv b' l /\ held b' = held b ++ [f]
    /\ bf_disposed b' = false.
Proof.
  intros b f l Hl Hd. destruct (buf_step_ok b (BPut f)) as (e & b' & E & _ & Hq & Hok & _ & Hd2 & _ & (ok & ->)).
  { apply Hl. }
  pose proof (live_step _ _ _ _ _ Hl (I : phase_ok l (BPut f)) E) as Hl'.
  pose proof (Hok f ok eq_refl) as Hok'. rewrite Hd in Hok'. cbn in Hok'. subst ok.
  unfold buf_step in E. destruct (buf_put f b) as [[o b1]| |]; try discriminate.
  cbn in E. injection E as -> ->. exists b'. split; [reflexivity|]. split; [exact Hl'|].
  cbn in Hq. split; [now symmetry|].
  destruct (bf_disposed b') eqn:E; auto. destruct (Hd2 eq_refl); congruence.
Qed.
Lemma load_step : forall b : buf frame, live_inv b true ->
  exists n b', buf_load b = Ok (n, b') /\ live_inv b' false /\ held b' = held b
    /\ bf_disposed b' = bf_disposed b.
Proof.
  intros b Hl. destruct (buf_step_ok b BLoad) as (e & b' & E & _ & Hq & _ & Hd1 & Hd2 & _ & (n & ->)).
  { apply Hl. }
  pose proof (live_step _ _ _ _ _ Hl (eq_refl : phase_ok true (@BLoad frame)) E) as Hl'.
  unfold buf_step in E. destruct (buf_load b) as [[o b1]| |]; try discriminate.
  cbn in E. injection E as -> ->. exists n, b'. split; [reflexivity|]. split; [exact Hl'|].
  cbn in Hq. rewrite app_nil_r in Hq. split; [now symmetry|].
  destruct (bf_disposed b') eqn:E1, (bf_disposed b) eqn:E2; auto.
  - now destruct (Hd2 eq_refl).
Qed.
Lemma dispose_step : forall (b : buf frame) l, live_inv b l ->
  live_inv (buf_dispose b) l /\ held (buf_dispose b) = held b
  /\ bf_disposed (buf_dispose b) = true
  /\ (bf_closed b = true -> bf_closed (buf_dispose b) = true).
Proof.
  intros b l Hl. destruct (buf_step_ok b BDispose) as (e & b' & E & _ & Hq & _ & _ & _ & _ & (-> & Hd)).
  { apply Hl. }
  pose proof (live_step _ _ _ _ _ Hl (I : phase_ok l (@BDispose frame)) E) as Hl'.
  cbn in E. injection E as <-. cbn in Hq. rewrite app_nil_r in Hq.
  split; [exact Hl'|]. split; [now symmetry|]. split; [exact Hd|].
  unfold buf_dispose. destruct (bf_backlog b); cbn; auto.
Qed.
Lemma recv_step : forall b : buf frame, live_inv b false ->
  match buf_recv b with
  | (RValue f, b') => live_inv b' true /\ held b = f :: held b' /\ bf_disposed b' = bf_disposed b
  | (RClosed, b') => b' = b /\ held b = [] /\ bf_closed b = true
  | (RBlocked, b') => b' = b
  end.
Proof.
  intros b Hl. destruct (buf_step_ok b BRecv) as (e & b' & E & _ & Hq & _ & Hd1 & Hd2 & _ & (r & ->)).
  { apply Hl. }
  pose proof (live_step _ _ _ _ _ Hl (eq_refl : phase_ok false (@BRecv frame)) E) as Hl'.
  destruct Hl as (Hi & _ & _). unfold buf_inv in Hi.
  destruct b as [[f|] bl d cl]; cbn in *.
  - injection E as <- <-. auto.
  - destruct cl; cbn in *; auto. destruct (Hi eq_refl) as [-> ->]. auto.
Qed.

Lemma sess_step_inv : forall server input s st s', sess_inv server input s ->
  session_step s st = Ok s' -> sess_inv server input s'.
Proof.
  intros server input s st s' [H1 H2 H3 H4 H5 H6 H7 H8 H9] E.
  destruct s as [sv rd inp b dp del rdl cl]; cbn [ss_server ss_reader ss_input ss_buf ss_disp
    ss_delivered ss_read ss_conn_closed] in *. subst sv.
  destruct H7 as (used & HU1 & HU2).
  destruct st as [herr| |]; cbn [session_step ss_server ss_reader ss_input ss_buf ss_disp
    ss_delivered ss_read ss_conn_closed] in E.
  - destruct rd; cbn [past running] in *.
    + destruct (H5 eq_refl) as (-> & -> & Hh). destruct HU2 as [->|[HU2 _]]; [|discriminate]. cbn in HU1.
      destruct server.
      * destruct inp as [|[f| |e|] inp]; try discriminate; cbn in E.
        -- injection E as <-. constructor; cbn; auto. exists []. auto.
        -- destruct (is_setup f) eqn:Ef; injection E as <-.
           ++ constructor; cbn; auto.
              ** now destruct herr.
              ** destruct herr; discriminate.
              ** left. rewrite Hh. split; auto.
              ** exists []. cbn. auto.
              ** split; [rewrite H8; discriminate|destruct herr; discriminate].
              ** destruct herr; discriminate.
           ++ constructor; cbn; auto; try discriminate.
              ** right. repeat split; auto. eauto.
              ** exists []. cbn. auto.
              ** split; [rewrite H8; discriminate|discriminate].
        -- injection E as <-. constructor; cbn; auto; try discriminate.
           ++ left. split; [assumption|]. discriminate.
           ++ exists [ConnEof]. cbn. auto.
           ++ split; [rewrite H8; discriminate|discriminate].
        -- injection E as <-. constructor; cbn; auto; try discriminate.
           ++ left. split; [assumption|]. discriminate.
           ++ exists [ConnErr e]. cbn. eauto 6.
           ++ split; [rewrite H8; discriminate|discriminate].
      * injection E as <-. constructor; cbn; auto; try discriminate.
        -- left. split; auto. discriminate.
        -- exists []. auto.
        -- split; [rewrite H8; discriminate|discriminate].
    + destruct HU2 as [->|[HU2 _]]; [|discriminate].
      assert (Hq : del ++ held b = rdl /\ (server = true -> match rdl with [] => False | f :: _ => is_setup f = true end)).
      { destruct H6 as [[A B]|(_ & _ & _ & _ & B)]; [|discriminate].
        split; auto. intros Hs. specialize (B Hs). destruct rdl; auto. specialize (B eq_refl). discriminate. }
      clear H6. destruct Hq as [Hq Hs].
      destruct inp as [|[f| |e|] inp]; try discriminate; cbn in E.
      * injection E as <-. constructor; cbn; auto.
        -- left. split; auto. intros A. specialize (Hs A). destruct rdl; tauto.
        -- exists []. auto.
      * destruct (put_step b f _ H2 H4) as (b' & Eb & Hl & Hh & Hd).
        rewrite Eb in E. cbn in E. injection E as <-. constructor; cbn; auto; try discriminate.
        -- intros Hd'. destruct (H3 Hd') as [Hn Hc]. exfalso.
           destruct H2 as (Hi & _). destruct (Hi Hc) as [A _]. congruence.
        -- left. rewrite Hh, app_assoc, Hq. split; auto.
           intros A. specialize (Hs A). destruct rdl; [tauto|assumption].
        -- exists []. rewrite map_app, <- app_assoc. cbn. auto.
      * injection E as <-. constructor; cbn; auto; try discriminate.
        -- left. split; auto. intros A. specialize (Hs A). destruct rdl; [tauto|assumption].
        -- exists [ConnEof]. cbn. auto.
        -- split; [rewrite H8; discriminate|discriminate].
      * injection E as <-. constructor; cbn; auto; try discriminate.
        -- left. split; auto. intros A. specialize (Hs A). destruct rdl; [tauto|assumption].
        -- exists [ConnErr e]. cbn. eauto 6.
        -- split; [rewrite H8; discriminate|discriminate].
    + injection E as <-. destruct (dispose_step b _ H2) as (Hl & Hh & Hd & Hc).
      constructor; cbn; auto; try discriminate.
      * intros A. destruct (H3 A). rewrite Hh. auto.
      * rewrite Hh. destruct H6 as [[A B]|B]; [left; split; auto|right; exact B].
        intros C. specialize (B C). destruct rdl; auto. discriminate.
      * exists used. split; auto; destruct HU2 as [|[? ?]]; auto. 
      * split; [rewrite H8; discriminate|discriminate].
    + destruct dp; injection E as <-.
      1,2: constructor; cbn; auto; exists used; auto.
      constructor; cbn; auto; try discriminate.
      * destruct H6 as [[A B]|B]; [left; split; auto|right; exact B].
        intros C. specialize (B C). destruct rdl; auto. discriminate.
      * exists used; auto.
      * tauto.
    + injection E as <-. constructor; cbn; auto. exists used; auto.
  - destruct rd; injection E as <-; cbn [past running] in *.
    3-5: constructor; cbn; auto; exists used; auto.
    + destruct (H5 eq_refl) as (-> & -> & Hh). constructor; cbn; auto; try discriminate.
      * left. split; auto. discriminate.
      * exists used. split; auto; destruct HU2 as [|[? ?]]; auto.
      * split; [rewrite H8; discriminate|discriminate].
    + constructor; cbn; auto; try discriminate.
      * destruct H6 as [[A B]|(_ & _ & _ & _ & B)]; [|discriminate]. left. split; auto.
        intros C. specialize (B C). destruct rdl; auto. discriminate.
      * exists used. split; auto; destruct HU2 as [|[? ?]]; auto.
      * split; [rewrite H8; discriminate|discriminate].
  - destruct dp; cbn [loading] in *.
    + pose proof (recv_step b H2) as Hr. destruct (buf_recv b) as [[f| |] b'].
      * destruct Hr as (Hl & Hh & Hd). injection E as <-. constructor; cbn; auto; try discriminate.
        -- now rewrite Hd.
        -- intros A. destruct (H5 A) as (_ & _ & B). rewrite Hh in B. discriminate.
        -- left. destruct H6 as [[A B]|(_ & _ & B & _)]; [|rewrite Hh in B; discriminate].
           split; auto. rewrite <- app_assoc. cbn. now rewrite <- Hh.
        -- exists used; auto.
        -- intros A. specialize (H9 A). discriminate.
      * destruct Hr as (-> & Hh & Hc). injection E as <-. constructor; cbn; auto.
        exists used; auto.
      * injection E as <-. constructor; cbn; auto. exists used; auto.
    + destruct (load_step b H2) as (n & b' & Eb & Hl & Hh & Hd). rewrite Eb in E. cbn in E.
      injection E as <-. constructor; cbn; auto; try discriminate.
      * now rewrite Hd.
      * now rewrite Hh.
      * now rewrite Hh.
      * exists used; auto.
      * intros A. specialize (H9 A). discriminate.
    + injection E as <-. constructor; cbn; auto. exists used; auto.
Qed.

Lemma sess_run_inv : forall sts server input s s', sess_inv server input s ->
  session_run s sts = Ok s' -> sess_inv server input s'.
Proof.
  induction sts as [|st sts IH]; intros server input s s' Hi E; cbn [session_run] in E.
  - injection E as <-. exact Hi.
  - destruct (session_step s st) as [s1| |] eqn:E1; try discriminate. cbn [bind] in E.
    eapply IH; [|exact E]. eapply sess_step_inv; eauto.
Qed.

Lemma sess_step_no_panic : forall server input s st, sess_inv server input s ->
  ~ In ConnPanic (ss_input s) -> exists s', session_step s st = Ok s'
    /\ ~ In ConnPanic (ss_input s').
Proof.
  intros server input s st Hi Hp.
  destruct s as [sv rd inp b dp del rdl cl]. cbn [ss_input] in Hp.
  destruct Hi as [H1 H2 H3 H4 H5 H6 H7 H8 H9]; cbn in *.
  destruct st as [herr| |]; cbn.
  - destruct rd; cbn.
    + destruct sv; [|eexists; split; [reflexivity|exact Hp]].
      destruct inp as [|[f| |e|] inp]; cbn in Hp.
      * eexists; split; [reflexivity|]. cbn. tauto.
      * destruct (is_setup f); eexists; (split; [reflexivity|]); cbn; tauto.
      * eexists; split; [reflexivity|]; cbn; tauto.
      * eexists; split; [reflexivity|]; cbn; tauto.
      * tauto.
    + destruct inp as [|[f| |e|] inp]; cbn in Hp.
      * eexists; split; [reflexivity|]. cbn. tauto.
      * destruct (put_step b f _ H2 H4) as (b' & -> & _). cbn.
        eexists; (split; [reflexivity|]); cbn; tauto.
      * eexists; split; [reflexivity|]; cbn; tauto.
      * eexists; split; [reflexivity|]; cbn; tauto.
      * tauto.
    + eexists; split; [reflexivity|]; cbn; tauto.
    + destruct dp; eexists; (split; [reflexivity|]); cbn; tauto.
    + eexists; split; [reflexivity|]; cbn; tauto.
  - destruct rd; eexists; (split; [reflexivity|]); cbn; tauto.
  - destruct dp; cbn in *.
    + destruct (buf_recv b) as [[f| |] b']; eexists; (split; [reflexivity|]); cbn; tauto.
    + destruct (load_step b H2) as (n & b' & -> & _). cbn.
      eexists; (split; [reflexivity|]); cbn; tauto.
    + eexists; (split; [reflexivity|]); cbn; tauto.
Qed.
Lemma sess_run_no_panic : forall sts server input s, sess_inv server input s ->
  ~ In ConnPanic (ss_input s) -> exists s', session_run s sts = Ok s'.
Proof.
  induction sts as [|st sts IH]; intros server input s Hi Hp; cbn [session_run]; [eauto|].
  destruct (sess_step_no_panic _ _ s st Hi Hp) as (s1 & E & Hp1). rewrite E. cbn [bind].
  apply (IH server input s1); auto. eapply sess_step_inv; eauto.
Qed.

Lemma session_run_app : forall a b s, session_run s (a ++ b)
  = match session_run s a with Ok s' => session_run s' b | r => r end.
Proof.
  induction a as [|st a IH]; intros b s; [reflexivity|]. cbn [app session_run].
  destruct (session_step s st); cbn [bind]; auto.
Qed.

(** Once the reader has disposed of the buffer, the dispatcher alone finishes. *)
Lemma disp_drains : forall n server input s, sess_inv server input s ->
  ss_reader s = RDisposed -> ss_disp s <> DDone ->
  List.length (held (ss_buf s)) = n ->
  exists k s', session_run s (repeat SDisp k) = Ok s' /\ ss_disp s' = DDone
     /\ ss_reader s' = RDisposed.
Proof.
  induction n as [n IH] using lt_wf_ind. intros server input s Hi Hr Hd Hn.
  (* first make the dispatcher wait *)
  assert (Hw : exists k s1, session_run s (repeat SDisp k) = Ok s1 /\ ss_disp s1 = DWait
     /\ ss_reader s1 = RDisposed /\ held (ss_buf s1) = held (ss_buf s)).
  { destruct (ss_disp s) eqn:Ed; [|clear IH|congruence].
    - exists 0%nat, s. cbn. auto.
    - destruct (load_step (ss_buf s)) as (m & b' & Eb & Hl & Hh & Hd').
      { pose proof (si_live _ _ _ Hi) as A. rewrite Ed in A. exact A. }
      exists 1%nat. cbn. rewrite Ed, Eb. cbn. eexists. split; [reflexivity|]. cbn. auto. }
  destruct Hw as (k & s1 & E1 & Ed1 & Er1 & Eh1).
  assert (Hi1 : sess_inv server input s1) by (eapply sess_run_inv; eauto).
  pose proof (si_live _ _ _ Hi1) as Hl1. rewrite Ed1 in Hl1. cbn in Hl1.
  pose proof (recv_step (ss_buf s1) Hl1) as Hrv.
  destruct (session_step s1 SDisp) as [s2| |] eqn:E2.
  2,3: cbn in E2; rewrite Ed1 in E2; destruct (buf_recv (ss_buf s1)) as [[| |] ?]; discriminate.
  assert (Hi2 : sess_inv server input s2) by (eapply sess_step_inv; eauto).
  pose proof E2 as E2'. cbn in E2. rewrite Ed1 in E2.
  destruct (buf_recv (ss_buf s1)) as [[f| |] b'] eqn:Eb.
  - destruct Hrv as (_ & Hh & _). injection E2 as <-.
    edestruct (IH (List.length (held b'))) as (k2 & s3 & E3 & Hd3 & Hr3); [|exact Hi2|exact Er1| |reflexivity|].
    { rewrite <- Hn, <- Eh1, Hh. cbn. lia. }
    { cbn. discriminate. }
    exists (k + S k2)%nat, s3. rewrite repeat_app, session_run_app, E1. cbn [repeat session_run].
    rewrite E2'. cbn [bind]. auto.
  - injection E2 as <-. exists (k + 1)%nat. eexists. rewrite repeat_app, session_run_app, E1.
    cbn [repeat session_run]. rewrite E2'. cbn [bind]. split; [reflexivity|]. cbn. auto.
  - exfalso. pose proof (si_disposed _ _ _ Hi1) as Hdis. rewrite Er1 in Hdis. cbn in Hdis.
    destruct Hl1 as (A & B & C). unfold buf_recv in Eb.
    destruct (bf_chan (ss_buf s1)) eqn:Ec; [discriminate|].
    destruct (bf_closed (ss_buf s1)) eqn:Ecl; [discriminate|].
    destruct (bf_backlog (ss_buf s1)) eqn:Ebl.
    + destruct (C Hdis eq_refl) as [|[|]]; congruence.
    + destruct B as [|]; congruence.
Qed.
