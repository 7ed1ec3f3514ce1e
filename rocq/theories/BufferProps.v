(** Property theorems C25, C26: the unbounded buffer. *)
From Verif Require Import Base BaseFacts BufferModel BufferProofs.

(** *** C25 *)
(** [accepted]/[received] (BufferProofs.v) read the trace only. *)
Theorem C25_buffer_fifo : forall T (os : list (bop T)),
  exists es b, buf_run buf_new os = Ok (es, b)
    /\ length es = length os
    /\ exists rest, accepted es = received es ++ rest.
Proof.
  intros T os. destruct (buf_run_ok os buf_new buf_inv_new) as (es & b & E & _ & Hl & Hq).
  exists es, b. split; [exact E|]. split; [exact Hl|]. exists (held b). exact Hq.
Qed.
(** A Put is accepted exactly when no Dispose came before it. *)
Theorem C25_put_accepted_iff_before_dispose : forall T (os1 os2 : list (bop T)) x es b,
  buf_run buf_new (os1 ++ BPut x :: os2) = Ok (es, b) ->
  exists ok, nth_error es (length os1) = Some (EPut x ok)
    /\ (ok = true <-> ~ In BDispose os1).
Proof.
  intros T os1 os2 x es b.
  assert (G : forall os b0 es b, buf_inv b0 -> buf_run b0 (os ++ BPut x :: os2) = Ok (es, b) ->
    exists ok, nth_error es (length os) = Some (EPut x ok)
      /\ (ok = true <-> bf_disposed b0 = false /\ ~ In BDispose os)).
  { clear. induction os as [|o os IH]; intros b0 es b Hi E.
    - cbn [app buf_run] in E. destruct (buf_step_ok b0 (BPut x) Hi) as
        (e & b1 & E1 & _ & _ & Hok & _ & _ & _ & (ok & ->)).
      rewrite E1 in E. cbn [bind fst snd] in E.
      destruct (buf_run b1 os2) as [[es2 b2]| |]; try discriminate.
      cbn in E. injection E as <- <-. exists ok. cbn. split; [reflexivity|].
      specialize (Hok x ok eq_refl). subst ok. destruct (bf_disposed b0); cbn; intuition congruence.
    - cbn [app buf_run] in E.
      destruct (buf_step_ok b0 o Hi) as (e & b1 & E1 & Hi1 & _ & _ & Hd1 & Hd2 & _ & Hk).
      rewrite E1 in E. cbn [bind fst snd] in E.
      destruct (buf_run b1 (os ++ BPut x :: os2)) as [[es2 b2]| |] eqn:E2; try discriminate.
      cbn in E. injection E as <- <-. cbn [length nth_error].
      destruct (IH b1 es2 b2 Hi1 E2) as (ok & Hn & Hok). exists ok. split; [exact Hn|].
      rewrite Hok. cbn [In]. split; intros [A B]; split.
      + destruct (bf_disposed b0) eqn:E0; [|reflexivity]. rewrite Hd1 in A by auto. discriminate.
      + intros [->|C]; [|tauto]. destruct Hk as [_ Hk]. congruence.
      + destruct (bf_disposed b1) eqn:E0; [|reflexivity]. destruct (Hd2 eq_refl); [congruence|].
        subst o. exfalso. apply B. auto.
      + intros C. apply B. auto. }
  intros E. destruct (G os1 buf_new es b buf_inv_new E) as (ok & Hn & Hok).
  exists ok. split; [exact Hn|]. rewrite Hok. cbn. tauto.
Qed.
Example C25_example :
  buf_run buf_new [BPut 1; BPut 2; BPut 3; BRecv; BPut 4; BLoad; BRecv; BLoad; BDispose; BPut 5]
  = Ok ([EPut 1 true; EPut 2 true; EPut 3 true; ERecv (RValue 1); EPut 4 true; ELoad 1;
         ERecv (RValue 2); ELoad 1; EDispose; EPut 5 false],
        {| bf_chan := Some 3; bf_backlog := [4]; bf_disposed := true; bf_closed := false |}).
Proof. vm_compute. reflexivity. Qed.
Print Assumptions C25_buffer_fifo.
Print Assumptions C25_put_accepted_iff_before_dispose.

(** *** C26 *)
(** Whenever the reader (which calls Load after each receive) is about to
    receive and some accepted value is undelivered, a receive returns a value;
    if the buffer is disposed and all are delivered, a receive reports closed. *)
Theorem C26_reader_never_stranded : forall T (os : list (bop T)) es b,
  buf_run buf_new os = Ok (es, b) -> protocol false os es -> final_phase false es = false ->
  (accepted es <> received es -> exists x, fst (buf_recv b) = RValue x)
  /\ (fst (buf_recv b) = RClosed <-> In BDispose os /\ accepted es = received es).
Proof.
  intros T os es b E Hp Hf.
  pose proof (live_run os _ _ _ _ live_new E Hp) as (Hi & H1 & H2). rewrite Hf in *.
  destruct (buf_run_ok os buf_new buf_inv_new) as (es0 & b0 & E0 & _ & _ & Hq).
  rewrite E in E0. injection E0 as <- <-. cbn in Hq.
  assert (Hd : bf_disposed b = true <-> In BDispose os).
  { rewrite (disposed_run os buf_new es b buf_inv_new E). cbn. intuition discriminate. }
  destruct b as [c bl d cl]; cbn in *. split.
  - intros Hne. destruct c as [x|]; [exists x; reflexivity|].
    destruct bl as [|y bl]; [exfalso; apply Hne; rewrite Hq; apply app_nil_r|].
    destruct H1; congruence.
  - rewrite <- Hd. unfold buf_recv; cbn. destruct c as [x|]; cbn.
    + split; [discriminate|]. intros [_ A]. rewrite Hq in A. exfalso.
      apply (f_equal (@length T)) in A. rewrite app_length in A. cbn in A. lia.
    + destruct cl; cbn.
      * split; [|reflexivity]. intros _. destruct (Hi eq_refl) as [A B]. cbn in A, B. subst.
        split; [reflexivity|]. rewrite Hq. apply app_nil_r.
      * split; [discriminate|]. intros [A B]. exfalso.
        rewrite Hq in B. unfold held in B; cbn in B.
        assert (bl = []).
        { destruct bl; [reflexivity|]. apply (f_equal (@length T)) in B.
          rewrite app_length in B. cbn in B. lia. }
        destruct (H2 A H) as [|[|]]; congruence.
Qed.
(** After Dispose, a reader alone gets every remaining value, then the close. *)
Theorem C26_drain_after_dispose : forall T (os : list (bop T)) es b,
  buf_run buf_new os = Ok (es, b) -> protocol false os es -> final_phase false es = false ->
  In BDispose os ->
  exists n es2 b2, buf_run b (drain_ops n) = Ok (es2, b2)
    /\ accepted es = received es ++ received es2
    /\ last es2 (ELoad 0) = ERecv RClosed.
Proof.
  intros T os es b E Hp Hf Hin.
  pose proof (live_run os _ _ _ _ live_new E Hp) as Hl. rewrite Hf in Hl.
  destruct (buf_run_ok os buf_new buf_inv_new) as (es0 & b0 & E0 & _ & _ & Hq).
  rewrite E in E0. injection E0 as <- <-. cbn in Hq.
  assert (Hd : bf_disposed b = true).
  { apply (disposed_run os buf_new es b buf_inv_new E). auto. }
  destruct (drain_run _ b Hl Hd eq_refl) as (es2 & b2 & E2 & Hr & Hlast).
  eexists _, es2, b2. split; [exact E2|]. rewrite Hr. auto.
Qed.
Example C26_example :
  let os := [BPut 1; BPut 2; BPut 3; BRecv; BLoad; BDispose] in
  match buf_run buf_new os with
  | Ok (es, b) =>
      protocol false os es /\ final_phase false es = false
      /\ (exists es2 b2, buf_run b (drain_ops 2) = Ok (es2, b2) /\ received es2 = [2; 3]
          /\ last es2 (ELoad 0) = ERecv RClosed)
  | _ => False
  end.
Proof. vm_compute. repeat split; try reflexivity. eexists _, _. repeat split. Qed.
Print Assumptions C26_reader_never_stranded.
Print Assumptions C26_drain_after_dispose.
