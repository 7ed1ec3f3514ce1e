(** Invariants of the unbounded buffer. *)
From Verif Require Import Base BaseFacts BufferModel.

Section BufferProofs.
Context {T : Type}.

(** Specification vocabulary: values accepted and values received in a trace. *)
Fixpoint accepted (es : list (bevent T)) : list T :=
  match es with
  | [] => []
  | EPut x true :: es' => x :: accepted es'
  | _ :: es' => accepted es'
  end.
Fixpoint received (es : list (bevent T)) : list T :=
  match es with
  | [] => []
  | ERecv (RValue x) :: es' => x :: received es'
  | _ :: es' => received es'
  end.
Definition held (b : buf T) : list T :=
  match bf_chan b with Some x => [x] | None => [] end ++ bf_backlog b.

Definition buf_inv (b : buf T) : Prop :=
  bf_closed b = true -> bf_disposed b = true /\ bf_backlog b = [].

Lemma buf_inv_new : buf_inv buf_new.
Proof. intros H. discriminate. Qed.

Lemma buf_step_ok : forall b o, buf_inv b ->
  exists e b', buf_step b o = Ok (e, b') /\ buf_inv b'
    /\ held b ++ accepted [e] = received [e] ++ held b'
    /\ (forall x ok, e = EPut x ok -> ok = negb (bf_disposed b))
    /\ (bf_disposed b = true -> bf_disposed b' = true)
    /\ (bf_disposed b' = true -> bf_disposed b = true \/ o = BDispose)
    /\ (e = ERecv RClosed -> held b' = [] /\ bf_disposed b' = true)
    /\ (match o with
        | BPut x => exists ok, e = EPut x ok
        | BRecv => exists r, e = ERecv r
        | BLoad => exists n, e = ELoad n
        | BDispose => e = EDispose /\ bf_disposed b' = true
        end).
Proof.
  intros [c bl d cl] o Hi. unfold buf_inv in Hi; cbn in Hi.
  destruct o as [x| | |]; unfold buf_step, buf_put, buf_recv, buf_load, buf_dispose, buf_close;
    cbn [bf_chan bf_backlog bf_disposed bf_closed].
  - destruct d; cbn [bind fst snd].
    + eexists _, _. split; [reflexivity|]. unfold buf_inv, held; cbn.
      rewrite app_nil_r. repeat split; auto; try tauto; try (intros; congruence); eauto.
    + destruct bl as [|y bl].
      * destruct cl; [destruct Hi; auto; discriminate|].
        destruct c as [y|]; cbn [bind fst snd]; eexists _, _; (split; [reflexivity|]);
          unfold buf_inv, held; cbn;
          repeat split; auto; try (intros; discriminate); try (intros ? ? [= <- <-]; reflexivity); eauto.
      * cbn [bind fst snd]. eexists _, _; (split; [reflexivity|]); unfold buf_inv, held; cbn.
        destruct cl; [destruct Hi; auto; discriminate|].
        rewrite <- ?app_assoc. cbn.
        repeat split; auto; try (intros; discriminate); try (intros ? ? [= <- <-]; reflexivity); eauto.
  - eexists _, _; (split; [reflexivity|]).
    destruct c as [y|]; [|destruct cl eqn:Ecl]; cbn [fst snd];
      unfold buf_inv, held; cbn; rewrite ?app_nil_r;
      repeat split; auto; try (intros; discriminate); eauto; try tauto;
      try (apply Hi; auto).
  - destruct bl as [|y bl].
    + destruct d; cbn [bind fst snd]; eexists _, _; (split; [reflexivity|]);
        unfold buf_inv, held; cbn; rewrite ?app_nil_r;
        repeat split; auto; try (intros; discriminate); eauto; try tauto; try (apply Hi; auto).
    + destruct cl; [destruct Hi; auto; discriminate|].
      destruct c as [z|]; cbn [bind fst snd]; eexists _, _; (split; [reflexivity|]);
        unfold buf_inv, held; cbn; rewrite ?app_nil_r;
        repeat split; auto; try (intros; discriminate); eauto; try tauto.
  - eexists _, _; (split; [reflexivity|]).
    destruct bl as [|y bl]; unfold buf_inv, held; cbn; rewrite ?app_nil_r;
      repeat split; auto; try (intros; discriminate); eauto; try tauto.
Qed.

Lemma accepted_app : forall a b, accepted (a ++ b) = accepted a ++ accepted b.
Proof.
  induction a as [|e a IH]; intros b; [reflexivity|].
  cbn. destruct e as [x [|]| | |]; cbn; rewrite ?IH; reflexivity.
Qed.
Lemma received_app : forall a b, received (a ++ b) = received a ++ received b.
Proof.
  induction a as [|e a IH]; intros b; [reflexivity|].
  cbn. destruct e as [|[x| |]| |]; cbn; rewrite ?IH; reflexivity.
Qed.

Lemma buf_run_ok : forall os b, buf_inv b ->
  exists es b', buf_run b os = Ok (es, b') /\ buf_inv b' /\ length es = length os
    /\ held b ++ accepted es = received es ++ held b'.
Proof.
  induction os as [|o os IH]; intros b Hi.
  - exists [], b. cbn. rewrite app_nil_r. auto.
  - destruct (buf_step_ok b o Hi) as (e & b1 & E & Hi1 & Hq & _).
    destruct (IH b1 Hi1) as (es & b2 & E2 & Hi2 & Hl & Hq2).
    exists (e :: es), b2. cbn [buf_run]. rewrite E. cbn [bind fst snd]. rewrite E2.
    cbn [bind fst snd length]. split; [reflexivity|]. split; [assumption|]. split; [lia|].
    change (e :: es) with ([e] ++ es). rewrite accepted_app, received_app.
    rewrite app_assoc, Hq, <- app_assoc, Hq2. now rewrite app_assoc.
Qed.

Lemma disposed_run : forall (os : list (bop T)) b0 es b, buf_inv b0 -> buf_run b0 os = Ok (es, b) ->
  (bf_disposed b = true <-> bf_disposed b0 = true \/ In BDispose os).
Proof.
  induction os as [|o os IH]; intros b0 es b Hi E.
  - cbn in E. injection E as <- <-. cbn. tauto.
  - cbn [buf_run] in E.
    destruct (buf_step_ok b0 o Hi) as (e & b1 & E1 & Hi1 & _ & _ & Hd1 & Hd2 & _ & Hk).
    rewrite E1 in E. cbn [bind fst snd] in E.
    destruct (buf_run b1 os) as [[es2 b2]| |] eqn:E2; try discriminate.
    cbn in E. injection E as <- <-. rewrite (IH _ _ _ Hi1 E2). cbn [In].
    split; intros [A|A]; auto.
    + destruct (Hd2 A); auto.
    + destruct A as [->|A]; [|auto]. left. now destruct Hk.
Qed.

(** ** The reader protocol: receive, then Load, then receive again *)
(** Reader phase: [true] when the reader has received and not yet called Load. *)
Definition live_inv (b : buf T) (loading : bool) : Prop :=
  buf_inv b
  /\ (bf_backlog b <> [] -> bf_chan b <> None \/ loading = true)
  /\ (bf_disposed b = true -> bf_backlog b = [] ->
      bf_closed b = true \/ bf_chan b <> None \/ loading = true).

(** Steps allowed for each phase, and the phase after it. *)
Definition phase_ok (loading : bool) (o : bop T) : Prop :=
  match o with BRecv => loading = false | BLoad => loading = true | _ => True end.
Definition phase_next (loading : bool) (e : bevent T) : bool :=
  match e with ERecv (RValue _) => true | ELoad _ => false | _ => loading end.
Fixpoint protocol (loading : bool) (os : list (bop T)) (es : list (bevent T)) : Prop :=
  match os, es with
  | o :: os', e :: es' => phase_ok loading o /\ protocol (phase_next loading e) os' es'
  | _, _ => True
  end.
Fixpoint final_phase (loading : bool) (es : list (bevent T)) : bool :=
  match es with [] => loading | e :: es' => final_phase (phase_next loading e) es' end.

Lemma live_step : forall b l o e b', live_inv b l -> phase_ok l o ->
  buf_step b o = Ok (e, b') -> live_inv b' (phase_next l e).
Proof.
  intros [c bl d cl] l o e b' (Hi & H1 & H2) Hp E.
  split.
  { destruct (buf_step_ok _ o Hi) as (e0 & b0 & E0 & Hi0 & _).
    rewrite E in E0. injection E0 as <- <-. exact Hi0. }
  unfold buf_inv in Hi; cbn in Hi, H1, H2.
  destruct o as [x| | |]; unfold buf_step, buf_put, buf_recv, buf_load, buf_dispose, buf_close in E;
    cbn [bf_chan bf_backlog bf_disposed bf_closed] in E; cbn [phase_ok] in Hp; subst;
    repeat match type of E with
    | context [match ?v with _ => _ end] => is_var v; destruct v; cbn [bind fst snd] in E
    end; try discriminate; injection E as <- <-; cbn;
    (split; intros; auto; try congruence;
     try (left; congruence); try (right; left; congruence)).
  all: try (destruct (Hi eq_refl); discriminate).
  all: try (destruct (H1 ltac:(congruence)); [left; congruence|right; congruence]).
  all: try (destruct (H2 eq_refl eq_refl) as [|[|]]; auto; congruence).
Qed.

Lemma live_run : forall os b l es b', live_inv b l ->
  buf_run b os = Ok (es, b') -> protocol l os es -> live_inv b' (final_phase l es).
Proof.
  induction os as [|o os IH]; intros b l es b' Hi E Hp.
  - cbn in E. injection E as <- <-. exact Hi.
  - cbn [buf_run] in E. destruct (buf_step b o) as [[e b1]| |] eqn:E1; try discriminate.
    cbn [bind fst snd] in E. destruct (buf_run b1 os) as [[es' b2]| |] eqn:E2; try discriminate.
    cbn [bind fst snd] in E. injection E as <- <-. cbn [protocol] in Hp. destruct Hp as [Hp1 Hp2].
    cbn [final_phase]. eapply IH; eauto. eapply live_step; eauto.
Qed.

Lemma live_new : live_inv buf_new false.
Proof. split; [apply buf_inv_new|]. cbn. split; congruence. Qed.

(** Draining: alternating receive and Load after Dispose. *)
Fixpoint drain_ops (n : nat) : list (bop T) :=
  match n with O => [BRecv] | S n' => BRecv :: BLoad :: drain_ops n' end.
Lemma drain_run : forall n b, live_inv b false -> bf_disposed b = true ->
  length (held b) = n ->
  exists es b', buf_run b (drain_ops n) = Ok (es, b') /\ received es = held b
    /\ last es (ELoad 0) = ERecv RClosed.
Proof.
  induction n as [|n IH]; intros [c bl d cl] (Hi & H1 & H2) Hd Hn; cbn in Hd, H1, H2, Hn.
  - unfold held in *; cbn in *. destruct c as [x|]; [discriminate|].
    destruct bl as [|y bl]; [|discriminate].
    destruct (H2 Hd eq_refl) as [->|[H|H]]; try congruence.
    eexists _, _. split; [reflexivity|]. cbn. auto.
  - unfold held in Hn; cbn in Hn.
    destruct c as [x|].
    2:{ destruct bl as [|y bl]; [discriminate|]. destruct H1 as [H|H]; congruence. }
    cbn in Hn. injection Hn as Hn. subst d.
    destruct bl as [|y bl].
    + cbn in Hn. subst n. eexists _, _. split; [reflexivity|]. cbn. auto.
    + assert (cl = false).
      { destruct cl; [|reflexivity]. destruct (Hi eq_refl). discriminate. }
      subst cl.
      destruct (IH {| bf_chan := Some y; bf_backlog := bl; bf_disposed := true; bf_closed := false |})
        as (es & b' & E & Hr & Hl).
      * split; [intros H; discriminate|]. cbn. split; intros; [left|right; left]; congruence.
      * reflexivity.
      * cbn in *. lia.
      * cbn [drain_ops buf_run]. unfold buf_step at 1. cbn [buf_recv bf_chan fst snd bind].
        unfold buf_step at 1. cbn [buf_load bf_chan bf_backlog bf_closed bf_disposed fst snd bind].
        rewrite E. cbn [bind fst snd].
        eexists _, _. split; [reflexivity|]. split.
        -- cbn. rewrite Hr. reflexivity.
        -- cbn [last]. destruct es; [discriminate Hl|]. exact Hl.
Qed.
End BufferProofs.
