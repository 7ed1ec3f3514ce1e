(** C87: the life of a TCP server. *)
From Verif Require Import Base ServerModel.

Lemma memb_in x l : memb x l = true <-> In x l.
Proof. unfold memb. rewrite existsb_exists. split; [intros (y & H & E); apply Nat.eqb_eq in E; now subst|intros H; exists x; split; [exact H|apply Nat.eqb_refl]]. Qed.
Lemma memb_out x l : memb x l = false <-> ~ In x l.
Proof. rewrite <- memb_in. destruct (memb x l); split; congruence. Qed.
Lemma close_tp_in c id x : In x (close_tp c id) <-> In x c \/ x = id.
Proof. unfold close_tp. destruct (memb id c) eqn:M; [apply memb_in in M; split; [auto|intros [H| ->]; auto]|]. rewrite in_app_iff. cbn. intuition. Qed.
Lemma NoDup_snoc {A} (l : list A) x : NoDup l -> ~ In x l -> NoDup (l ++ [x]).
Proof. intros H Hx. induction H as [|y l Hy H IH]; cbn; [constructor; [auto|constructor]|]. constructor; [rewrite in_app_iff; cbn in *; intuition congruence|apply IH; cbn in Hx; tauto]. Qed.
Lemma NoDup_front {A} (a b : list A) : NoDup (a ++ b) -> NoDup a.
Proof. induction a as [|x a IH]; intros H; [constructor|]. inversion H; subst. constructor; [rewrite in_app_iff in *; tauto|auto]. Qed.
Lemma close_tp_nodup c id : NoDup c -> NoDup (close_tp c id).
Proof. intros H. unfold close_tp. destruct (memb id c) eqn:M; [exact H|]. apply NoDup_snoc; [exact H|]. now apply memb_out. Qed.
Lemma close_all_in m c x : In x (fold_left close_tp m c) <-> In x c \/ In x m.
Proof. revert c. induction m as [|y m IH]; intros c; cbn; [tauto|]. rewrite IH, close_tp_in. intuition. Qed.
Lemma close_all_nodup m c : NoDup c -> NoDup (fold_left close_tp m c).
Proof. revert c. induction m as [|y m IH]; intros c H; cbn; [exact H|]. apply IH. now apply close_tp_nodup. Qed.

Definition pc_id (pc : lpc) : list nat := match pc with LPut id => [id] | _ => [] end.
Record sinv (s : server) : Prop := {
  v_ids : forall id, In id (sv_started s ++ sv_refused s ++ pc_id (sv_pc s)) <-> (id < sv_next s)%nat;
  v_nodup : NoDup (sv_started s ++ sv_refused s ++ pc_id (sv_pc s));
  v_map : match sv_map s with Some m => forall id, In id m <-> In id (sv_started s) /\ ~ In id (sv_forgotten s) | None => sv_lclosed s = true end;
  v_lclosed : sv_lclosed s = true -> sv_done s = true /\ sv_listener s = true /\ sv_map s = None /\
                forall id, In id (sv_started s) -> In id (sv_closed s) \/ In id (sv_forgotten s);
  v_early : sv_done s = true -> sv_lclosed s = false -> sv_started s = [];
  v_closed : NoDup (sv_closed s) /\ incl (sv_closed s) (sv_started s);
  v_ready : NoDup (sv_ready s) /\ incl (sv_ready s) (sv_started s);
  v_forgotten : incl (sv_forgotten s) (sv_ready s);
  v_ended : incl (sv_ended s) (sv_closed s);
  v_nolisten : sv_listener s = false -> sv_started s = [] /\ (sv_pc s = LIdle \/ sv_pc s = LReturned) }.
Lemma sinv_init : sinv server_init.
Proof.
  constructor; cbn; auto; try discriminate; try (intros x []); try (split; [constructor|intros x []]); try constructor; try tauto; try lia.
Qed.
Lemma done_close s : sv_done (do_close s) = true.
Proof. unfold do_close. destruct (sv_done s) eqn:E; [exact E|]. now destruct (sv_listener s). Qed.
Lemma sinv_close s : sinv s -> sinv (do_close s).
Proof.
  intros I. pose proof I as [A1 A2 A3 A4 A5 [A6 A7] [A8 A9] A10 A11 A12]. unfold do_close.
  destruct (sv_done s) eqn:Ed; [exact I|]. destruct (sv_listener s) eqn:El.
  - constructor; cbn; auto; try discriminate.
    + intros _. repeat split; auto. intros id Hid. destruct (sv_map s) as [m|].
      * destruct (in_dec Nat.eq_dec id (sv_forgotten s)) as [F|F]; [now right|left]. apply close_all_in. right. apply A3. auto.
      * apply A4 in A3. destruct A3 as [? _]. discriminate.
    + split; [now apply close_all_nodup|]. intros x Hx. apply close_all_in in Hx as [Hx|Hx]; [now apply A7|]. destruct (sv_map s) as [m|]; [now apply A3|destruct Hx].
    + intros x Hx. apply close_all_in. left. now apply A11.
  - assert (L : sv_lclosed s = false) by (destruct (sv_lclosed s); [destruct (A4 eq_refl) as [? _]; discriminate|reflexivity]).
    constructor; cbn; auto; try (intros; congruence). intros _ _. now apply A12.
Qed.
Lemma sinv_pc s pc : pc_id pc = pc_id (sv_pc s) -> sv_listener s = true \/ pc = LIdle \/ pc = LReturned -> sinv s -> sinv (set_pc s pc).
Proof.
  intros E L [A1 A2 A3 A4 A5 A6 A8 A10 A11 A12]. constructor; cbn; rewrite ?E; auto. intros H. split; [now apply A12|]. destruct L as [L|L]; [congruence|exact L].
Qed.
Lemma sinv_step s o : sinv s -> sinv (sstep s o).
Proof.
  intros I. pose proof I as [A1 A2 A3 A4 A5 [A6 A7] [A8 A9] A10 A11 A12].
  assert (Lp : sv_pc s <> LIdle -> sv_pc s <> LReturned -> sv_listener s = true) by (intros; destruct (sv_listener s); [reflexivity|destruct (A12 eq_refl) as [_ [H1|H1]]; congruence]).
  destruct o as [|ok|r| | | | | |id|id|id]; cbn [sstep].
  - now apply sinv_close.
  - destruct (sv_pc s) eqn:Ep; try exact I. destruct ok; [|apply sinv_pc; auto; rewrite Ep; reflexivity].
    constructor; cbn; auto; try discriminate. intros L. destruct (A4 L) as (? & ? & ? & ?). auto.
  - destruct (sv_pc s) eqn:Ep; try exact I. destruct r; [|apply sinv_pc; auto; [rewrite Ep; reflexivity|left; apply Lp; discriminate]|exact I].
    destruct (sv_lclosed s) eqn:Lc; [exact I|]. cbn [pc_id] in A1, A2. rewrite app_nil_r in A1, A2.
    constructor; cbn; auto; try discriminate.
    + intros id. rewrite app_assoc, in_app_iff, A1. cbn. lia.
    + rewrite app_assoc. apply NoDup_snoc; [exact A2|]. rewrite A1. lia.
    + intros H. rewrite Lp in H by discriminate. discriminate.
  - destruct (sv_pc s) as [| |id| | |] eqn:Ep; try exact I. unfold do_put. cbn [pc_id] in A1, A2.
    assert (P1 : forall l, In id (sv_started s ++ sv_refused s) -> l) by (intros l H; rewrite app_assoc in A2; apply NoDup_remove_2 in A2; rewrite app_nil_r in A2; contradiction).
    destruct (if sv_done s then None else sv_map s) as [m|] eqn:Em.
    + destruct (sv_done s) eqn:Ed; [discriminate|]. rewrite Em in *.
      assert (Lc : sv_lclosed s = false) by (destruct (sv_lclosed s); [destruct (A4 eq_refl) as [? _]; discriminate|reflexivity]).
      constructor; cbn; auto; try (intros; congruence).
      * intros x. rewrite <- A1. rewrite app_nil_r, !in_app_iff. cbn. tauto.
      * rewrite app_nil_r. assert (Q := A2). rewrite app_assoc in Q. apply NoDup_remove in Q as [Q1 Q2]. rewrite app_nil_r in Q1, Q2. rewrite <- app_assoc. cbn.
        apply NoDup_Add with (a := id) (l := sv_started s ++ sv_refused s); [apply Add_app|split; assumption].
      * intros x. rewrite !in_app_iff, A3. cbn. split; [intros [[? ?]|[<-|[]]]; [tauto|split; [tauto|intros F; apply (P1 _); apply in_app_iff; left; auto]]|tauto].
      * split; [exact A6|]. intros x Hx. apply in_app_iff. left. auto.
      * split; [exact A8|]. intros x Hx. apply in_app_iff. left. auto.
      * intros H. rewrite Lp in H by discriminate. discriminate.
    + constructor; cbn; auto.
      * intros x. rewrite <- A1. rewrite app_nil_r. reflexivity.
      * now rewrite app_nil_r.
      * intros H. rewrite Lp in H by discriminate. discriminate.
  - destruct (sv_pc s) eqn:Ep; try exact I. apply sinv_close, sinv_pc; auto; [rewrite Ep; reflexivity|left; apply Lp; discriminate].
  - destruct (sv_pc s) eqn:Ep; try exact I. apply sinv_close, sinv_pc; auto. rewrite Ep; reflexivity.
  - now constructor.
  - destruct (sv_daemon s && _); [|exact I]. assert (I' : sinv (if sv_ctx s then do_close s else s)) by (destruct (sv_ctx s); [now apply sinv_close|exact I]).
    destruct I'. now constructor.
  - destruct (_ && _) eqn:M; [|exact I]. apply andb_true_iff in M as [M M3]. apply andb_true_iff in M as [M1 M2]. apply memb_in in M1. apply negb_true_iff, memb_out in M2.
    constructor; cbn; auto.
    + split; [now apply NoDup_snoc|]. intros x Hx. apply in_app_iff in Hx as [Hx|[<-|[]]]; auto.
    + intros x Hx. apply in_app_iff. left. auto.
  - destruct (_ && _) eqn:M; [|exact I]. apply andb_true_iff in M as [M1 M2]. apply memb_in in M1. apply negb_true_iff, memb_out in M2.
    constructor; cbn; auto.
    + intros L. destruct (A4 L) as (? & ? & ? & H). repeat split; auto. intros x Hx. destruct (H x Hx); [left; apply close_tp_in|]; auto.
    + split; [now apply close_tp_nodup|]. intros x Hx. apply close_tp_in in Hx as [Hx| ->]; auto.
    + intros x Hx. apply close_tp_in. apply in_app_iff in Hx as [Hx|[<-|[]]]; auto.
  - destruct (memb id (sv_ready s)) eqn:M; [|exact I]. apply memb_in in M.
    constructor; cbn; auto.
    + destruct (sv_map s) as [m|]; cbn; [|exact A3]. intros x. rewrite filter_In, A3, in_app_iff, negb_true_iff, Nat.eqb_neq. cbn. intuition.
    + intros L. destruct (A4 L) as (? & ? & E & H). rewrite E. repeat split; auto. intros x Hx. rewrite in_app_iff. destruct (H x Hx); auto.
    + intros x Hx. apply in_app_iff in Hx as [Hx|[<-|[]]]; auto.
Qed.
Lemma sinv_run ops : forall s, sinv s -> sinv (fold_left sstep ops s).
Proof. induction ops as [|o ops IH]; intros s I; [exact I|]. apply IH. now apply sinv_step. Qed.
Lemma srun_inv ops : sinv (srun ops). Proof. apply sinv_run, sinv_init. Qed.
Lemma srun_app a b : srun (a ++ b) = fold_left sstep b (srun a). Proof. apply fold_left_app. Qed.
(** What never changes back. *)
Lemma do_close_keeps s : sv_started (do_close s) = sv_started s /\ sv_refused (do_close s) = sv_refused s /\ sv_next (do_close s) = sv_next s /\ sv_pc (do_close s) = sv_pc s /\ sv_listener (do_close s) = sv_listener s.
Proof. unfold do_close. destruct (sv_done s); [auto 10|]. destruct (sv_listener s); auto 10. Qed.
Lemma do_close_done s : sv_done s = true -> do_close s = s. Proof. intros H. unfold do_close. now rewrite H. Qed.
Lemma done_step s o : sv_done s = true -> sv_done (sstep s o) = true /\ sv_started (sstep s o) = sv_started s /\ sv_lclosed (sstep s o) = sv_lclosed s.
Proof.
  intros H. destruct o as [|ok|r| | | | | |id|id|id]; cbn [sstep].
  - now rewrite do_close_done.
  - destruct (sv_pc s); auto. destruct ok; auto.
  - destruct (sv_pc s); auto. destruct r; auto. destruct (sv_lclosed s) eqn:?; auto.
  - destruct (sv_pc s); auto. unfold do_put. rewrite H. auto.
  - destruct (sv_pc s); auto. now rewrite do_close_done.
  - destruct (sv_pc s); auto. now rewrite do_close_done.
  - auto.
  - destruct (_ && _); auto. destruct (sv_ctx s); [rewrite do_close_done by assumption|]; auto.
  - destruct (_ && _); auto.
  - destruct (_ && _); auto.
  - destruct (memb _ _); auto.
Qed.
Lemma done_run ops s : sv_done s = true -> let s' := fold_left sstep ops s in sv_done s' = true /\ sv_started s' = sv_started s /\ sv_lclosed s' = sv_lclosed s.
Proof. revert s. induction ops as [|o ops IH]; intros s H; cbn; [auto|]. destruct (done_step s o H) as (H1 & H2 & H3). destruct (IH _ H1) as (H4 & H5 & H6). rewrite H5, H6. auto. Qed.
Lemma refused_step s o id : In id (sv_refused s) -> In id (sv_refused (sstep s o)).
Proof.
  intros H. destruct o as [|ok|r| | | | | |j|j|j]; cbn [sstep].
  - now destruct (do_close_keeps s) as (_ & -> & _).
  - destruct (sv_pc s); auto. destruct ok; auto.
  - destruct (sv_pc s); auto. destruct r; auto. destruct (sv_lclosed s); auto.
  - destruct (sv_pc s); auto. unfold do_put. destruct (if sv_done s then _ else _); cbn; [auto|]. apply in_app_iff. auto.
  - destruct (sv_pc s); auto. now destruct (do_close_keeps (set_pc s LLoop)) as (_ & -> & _).
  - destruct (sv_pc s); auto. now destruct (do_close_keeps (set_pc s LReturned)) as (_ & -> & _).
  - auto.
  - destruct (_ && _); auto. cbn. destruct (sv_ctx s); auto. now destruct (do_close_keeps s) as (_ & -> & _).
  - destruct (_ && _); auto.
  - destruct (_ && _); auto.
  - destruct (memb _ _); auto.
Qed.
Lemma refused_run ops s id : In id (sv_refused s) -> In id (sv_refused (fold_left sstep ops s)).
Proof. revert s. induction ops as [|o ops IH]; intros s H; cbn; [auto|]. apply IH. now apply refused_step. Qed.

Definition ret_inv (s : server) : Prop := (sv_pc s = LIdle -> sv_listener s = false) /\ (sv_listener s = true -> sv_pc s = LReturned -> sv_done s = true).
Lemma ret_step s o : ret_inv s -> ret_inv (sstep s o).
Proof.
  intros R. pose proof R as [R1 R2].
  assert (Rc : forall s', (sv_pc s' = LIdle -> sv_listener s' = false) -> ret_inv (do_close s')).
  { intros s' H. split; [|intros _ _; apply done_close]. destruct (do_close_keeps s') as (_ & _ & _ & -> & ->). exact H. }
  destruct o as [|ok|r| | | | | |j|j|j]; cbn [sstep].
  - now apply Rc.
  - destruct (sv_pc s) eqn:Ep; try exact R. destruct ok; split; cbn; try discriminate. rewrite R1 by reflexivity. discriminate.
  - destruct (sv_pc s) eqn:Ep; try exact R. destruct r; [destruct (sv_lclosed s); [exact R|]| |exact R]; split; cbn; discriminate.
  - destruct (sv_pc s) eqn:Ep; try exact R. unfold do_put. destruct (if sv_done s then _ else _); split; cbn; discriminate.
  - destruct (sv_pc s) eqn:Ep; try exact R. apply Rc. cbn. discriminate.
  - destruct (sv_pc s) eqn:Ep; try exact R. apply Rc. cbn. discriminate.
  - exact R.
  - destruct (_ && _); [|exact R]. destruct (sv_ctx s); [exact (Rc s R1)|exact R].
  - destruct (_ && _); exact R.
  - destruct (_ && _); exact R.
  - destruct (memb _ _); exact R.
Qed.
Lemma ret_run ops : ret_inv (srun ops).
Proof.
  unfold srun. assert (G : forall l s, ret_inv s -> ret_inv (fold_left sstep l s)) by (induction l as [|o l IH]; intros s R; [exact R|apply IH; now apply ret_step]).
  apply G. split; cbn; [auto|discriminate].
Qed.

(** ** C87 *)
(** Closing a server that listens, by whatever way, closes the listener and
    every transport still known, each once; from then on no session starts. *)
Theorem C87_close_ends_everything : forall ops ops',
  sv_lclosed (srun ops) = true ->
  (forall id, In id (sv_started (srun ops)) -> In id (sv_closed (srun ops)) \/ In id (sv_forgotten (srun ops))) /\
  NoDup (sv_closed (srun ops)) /\ sv_map (srun ops) = None /\
  sv_started (srun (ops ++ ops')) = sv_started (srun ops).
Proof.
  intros ops ops' L. destruct (srun_inv ops). destruct (v_lclosed0 L) as (D & _ & M & H). destruct v_closed0.
  repeat split; auto. rewrite srun_app. now apply done_run.
Qed.
(** On a server that listens Close takes effect, also through a cancelled
    context; and Listen does not leave its loop before the server is closed. *)
Theorem C87_close_takes_effect : forall ops,
  sv_listener (srun ops) = true -> sv_done (srun ops) = false ->
  sv_lclosed (srun (ops ++ [SClose])) = true /\
  (sv_ctx (srun ops) = true -> sv_daemon (srun ops) = true -> sv_lclosed (srun (ops ++ [SDaemon])) = true) /\
  (sv_pc (srun ops) = LExit -> sv_lclosed (srun (ops ++ [SLeave])) = true) /\
  sv_pc (srun ops) <> LReturned.
Proof.
  intros ops L D. rewrite !srun_app. cbn [fold_left sstep]. repeat split.
  - unfold do_close. rewrite D, L. reflexivity.
  - intros C Dm. rewrite C, Dm. unfold do_close. rewrite D, L. reflexivity.
  - intros P. rewrite P. unfold do_close. cbn. rewrite D, L. reflexivity.
  - intros P. rewrite (proj2 (ret_run ops) L P) in D. discriminate.
Qed.
(** Every connection accepted is started as a session or refused, never both;
    the acceptor sees every session at most once. *)
Theorem C87_every_connection_once : forall ops,
  let s := srun ops in
  (forall id, (id < sv_next s)%nat <-> In id (sv_started s) \/ In id (sv_refused s) \/ sv_pc s = LPut id) /\
  NoDup (sv_started s ++ sv_refused s) /\ NoDup (sv_ready s) /\ incl (sv_ready s) (sv_started s) /\
  incl (sv_closed s) (sv_started s) /\ incl (sv_ended s) (sv_closed s).
Proof.
  intros ops s. unfold s. destruct (srun_inv ops) as [A1 A2 A3 A4 A5 [A6 A7] [A8 A9] A10 A11 A12]. repeat split; auto.
  - intros H. apply A1 in H. rewrite !in_app_iff in H. destruct H as [H|[H|H]]; auto. right. right. destruct (sv_pc (srun ops)); cbn in H; try (destruct H; fail). destruct H as [->|[]]. reflexivity.
  - intros H. apply A1. rewrite !in_app_iff. destruct H as [H|[H|H]]; auto. rewrite H. right. right. now left.
  - rewrite app_assoc in A2. now apply NoDup_front in A2.
Qed.
(** But a refused connection is never closed: 104 closes the server, not the
    connection.  And such connections exist. *)
Theorem C87_refused_connections_leak_refuted :
  (forall ops ops' id, In id (sv_refused (srun ops)) -> ~ In id (sv_closed (srun (ops ++ ops')))) /\
  sv_refused (srun [SListen true; SAccept AConn; SClose; SPut]) = [0%nat].
Proof.
  split; [|reflexivity]. intros ops ops' id H C.
  assert (R : In id (sv_refused (srun (ops ++ ops')))) by (rewrite srun_app; now apply refused_run).
  destruct (srun_inv (ops ++ ops')) as [A1 A2 A3 A4 A5 [A6 A7] [A8 A9] A10 A11 A12]. apply A7 in C.
  rewrite app_assoc in A2. apply NoDup_front in A2. apply in_split in R as (l1 & l2 & E). rewrite E in A2.
  rewrite app_assoc in A2. apply NoDup_remove_2 in A2. apply A2. rewrite !in_app_iff. auto.
Qed.
(** And Close before Listen makes a server that cannot be closed: it listens,
    nothing that happens later closes the listener, and every connection is
    taken and left open. *)
Definition no_listen (o : sop) : bool := match o with SListen _ => false | _ => true end.
Lemma quiet_before ops : forallb no_listen ops = true -> sv_pc (srun ops) = LIdle.
Proof.
  induction ops as [|o ops IH] using rev_ind; [reflexivity|]. rewrite forallb_app. intros H. apply andb_true_iff in H as [H1 H2]. cbn in H2. rewrite andb_true_r in H2.
  rewrite srun_app. cbn [fold_left]. specialize (IH H1). destruct o as [|ok|r| | | | | |j|j|j]; cbn [sstep]; try discriminate; rewrite ?IH; auto.
  - now destruct (do_close_keeps (srun ops)) as (_ & _ & _ & -> & _).
  - destruct (_ && _); auto. destruct (sv_ctx _); auto. cbn. now destruct (do_close_keeps (srun ops)) as (_ & _ & _ & -> & _).
  - destruct (_ && _); auto.
  - destruct (_ && _); auto.
  - destruct (memb _ _); auto.
Qed.
Theorem C87_close_before_listen_refuted : forall ops ops',
  forallb no_listen ops = true -> sv_done (srun ops) = true ->
  let s := srun (ops ++ SListen true :: ops') in
  sv_listener s = true /\ sv_lclosed s = false /\ sv_started s = [] /\ sv_closed s = [] /\
  (forall id, (id < sv_next s)%nat -> In id (sv_refused s) \/ sv_pc s = LPut id).
Proof.
  intros ops ops' Q D s. pose proof (quiet_before ops Q) as P. pose proof (proj1 (ret_run ops) P) as L.
  assert (E : srun (ops ++ [SListen true]) = sstep (srun ops) (SListen true)) by (rewrite srun_app; reflexivity).
  assert (D1 : sv_done (srun (ops ++ [SListen true])) = true) by (rewrite E; cbn; rewrite P; exact D).
  assert (S0 : s = fold_left sstep ops' (srun (ops ++ [SListen true]))) by (unfold s; rewrite <- srun_app, <- app_assoc; reflexivity).
  destruct (done_run ops' _ D1) as (H1 & H2 & H3). rewrite <- S0 in H1, H2, H3.
  assert (Lc : sv_lclosed (srun ops) = false).
  { destruct (sv_lclosed (srun ops)) eqn:X; [|reflexivity]. destruct (srun_inv ops). destruct (v_lclosed0 X) as (_ & Y & _). congruence. }
  rewrite E in H3. cbn in H3. rewrite P in H3. cbn in H3. rewrite Lc in H3.
  assert (I : sinv s) by apply srun_inv. destruct I as [A1 A2 A3 A4 A5 [A6 A7] [A8 A9] A10 A11 A12].
  pose proof (A5 H1 H3) as St. 
  assert (Ls : sv_listener s = true).
  { assert (G : forall l x, sv_listener x = true -> sv_listener (fold_left sstep l x) = true).
    { clear. induction l as [|o l IH]; intros x H; [exact H|]. apply IH. 
      destruct o as [|ok|r| | | | | |j|j|j]; cbn [sstep]; auto.
      - now destruct (do_close_keeps x) as (_ & _ & _ & _ & ->).
      - destruct (sv_pc x); auto. destruct ok; auto.
      - destruct (sv_pc x); auto. destruct r; auto. destruct (sv_lclosed x); auto.
      - destruct (sv_pc x); auto. unfold do_put. destruct (if sv_done x then _ else _); auto.
      - destruct (sv_pc x); auto. now destruct (do_close_keeps (set_pc x LLoop)) as (_ & _ & _ & _ & ->).
      - destruct (sv_pc x); auto. now destruct (do_close_keeps (set_pc x LReturned)) as (_ & _ & _ & _ & ->).
      - destruct (_ && _); auto. destruct (sv_ctx x); auto. cbn. now destruct (do_close_keeps x) as (_ & _ & _ & _ & ->).
      - destruct (_ && _); auto.
      - destruct (_ && _); auto.
      - destruct (memb _ _); auto. }
    rewrite S0. apply G. rewrite E. cbn. rewrite P. reflexivity. }
  repeat split; auto.
  - destruct (sv_closed s) as [|x l]; [reflexivity|]. assert (X : In x (sv_started s)) by (apply A7; now left). rewrite St in X. destruct X.
  - intros id Hid. apply A1 in Hid. rewrite St in Hid. cbn in Hid. apply in_app_iff in Hid as [Hid|Hid]; [now left|right].
    destruct (sv_pc s); cbn in Hid; try (destruct Hid; fail). destruct Hid as [->|[]]. reflexivity.
Qed.
(** Sessions that have ended stay in the server's table until the acceptor's
    user calls onClose: while nobody does, the table holds every session ever
    started. *)
Theorem C87_ended_sessions_stay_refuted : forall ops,
  sv_done (srun ops) = false -> sv_forgotten (srun ops) = [] ->
  exists m, sv_map (srun ops) = Some m /\ forall id, In id m <-> In id (sv_started (srun ops)).
Proof.
  intros ops D F. destruct (srun_inv ops) as [A1 A2 A3 A4 A5 [A6 A7] [A8 A9] A10 A11 A12].
  destruct (sv_map (srun ops)) as [m|]; [|destruct (A4 A3) as [? _]; congruence]. exists m. split; [reflexivity|]. intros id. rewrite A3, F. intuition.
Qed.
(** A session that ends before its Setup frame never becomes ready: the
    goroutine that waits for it (97-102) waits for ever. *)
Theorem C87_waiting_goroutine_leaks_refuted : forall ops ops' id,
  In id (sv_ended (srun ops)) -> ~ In id (sv_ready (srun ops)) -> ~ In id (sv_ready (srun (ops ++ ops'))).
Proof.
  intros ops ops' id. rewrite srun_app. generalize (srun ops). induction ops' as [|o ops' IH]; intros s He Hr; [exact Hr|]. cbn [fold_left]. 
  assert (K : forall x, sv_ended (do_close x) = sv_ended x /\ sv_ready (do_close x) = sv_ready x) by (intros x; unfold do_close; destruct (sv_done x), (sv_listener x); auto).
  assert (G : In id (sv_ended (sstep s o)) /\ ~ In id (sv_ready (sstep s o))); [|destruct G; now apply IH].
  destruct o as [|ok|r| | | | | |j|j|j]; cbn [sstep]; auto.
  - destruct (K s) as [-> ->]. auto.
  - destruct (sv_pc s); auto. destruct ok; auto.
  - destruct (sv_pc s); auto. destruct r; auto. destruct (sv_lclosed s); auto.
  - destruct (sv_pc s); auto. unfold do_put. destruct (if sv_done s then _ else _); auto.
  - destruct (sv_pc s); auto. destruct (K (set_pc s LLoop)) as [-> ->]. auto.
  - destruct (sv_pc s); auto. destruct (K (set_pc s LReturned)) as [-> ->]. auto.
  - destruct (_ && _); auto. destruct (sv_ctx s); auto. cbn. destruct (K s) as [-> ->]. auto.
  - destruct (_ && _) eqn:M; auto. apply andb_true_iff in M as [_ M]. apply negb_true_iff, memb_out in M. cbn. split; [exact He|].
    rewrite in_app_iff. cbn. intuition congruence.
  - destruct (_ && _); auto. cbn. rewrite in_app_iff. auto.
  - destruct (memb _ _); auto.
Qed.
Example C87_example :
  (let s := srun [SListen true; SAccept AConn; SPut; SAccept AErr; SAccept AConn; SPut; SReady 1; SForget 1; SAccept AConn; SPut; SEnd 2; SCtx; SAccept AConn; SDaemon; SPut; SRefuse; SAccept AConn; SAccept AEnd; SLeave; SEnd 0] in
   sv_lclosed s = true /\ sv_started s = [0; 1; 2]%nat /\ sv_closed s = [2; 0]%nat /\ sv_forgotten s = [1]%nat /\ sv_refused s = [3]%nat /\ sv_pc s = LReturned) /\
  (let s := srun [SListen true; SAccept AConn; SPut; SAccept AConn; SPut; SEnd 0] in
   sv_listener s = true /\ sv_done s = false /\ sv_map s = Some [0; 1]%nat /\ sv_ended s = [0]%nat) /\
  forallb no_listen [SCtx; SClose] = true /\ sv_done (srun [SCtx; SClose]) = true /\
  (let s := srun ([SCtx; SClose] ++ SListen true :: [SDaemon; SAccept AConn; SPut; SRefuse; SClose; SAccept AConn; SPut]) in sv_lclosed s = false /\ sv_refused s = [0; 1]%nat /\ sv_closed s = []).
Proof. vm_compute. auto 20. Qed.
Print Assumptions C87_close_ends_everything.
Print Assumptions C87_close_takes_effect.
Print Assumptions C87_every_connection_once.
Print Assumptions C87_refused_connections_leak_refuted.
Print Assumptions C87_close_before_listen_refuted.
Print Assumptions C87_ended_sessions_stay_refuted.
Print Assumptions C87_waiting_goroutine_leaks_refuted.
