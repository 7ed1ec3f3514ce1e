(** C84: the two loops of a host instance. *)
From Verif Require Import Base ChanModel.
From Coq Require Import Relations.

Section ChanProps.
Context {F G SG SH : Type} (guest : SG -> F -> SG * list G) (host : SH -> G -> SH * list F) (a b : nat).
Notation chans := (chans F G SG SH).
Notation loop_step := (loop_step guest host a b).
Notation any_step := (any_step guest host a b).
Definition any_run : chans -> chans -> Prop := clos_refl_trans_1n _ any_step.
Lemma run_trans : forall x y z, any_run x y -> any_run y z -> any_run x z.
Proof. induction 1 as [x|x y w S _ IH]; intros H; [exact H|]. econstructor; [exact S|]. now apply IH. Qed.
Lemma run_one : forall x y, any_step x y -> any_run x y.
Proof. intros x y S. econstructor; [exact S|constructor]. Qed.

(** The frames the guest passes when called with the frames [l] in turn, and
    those the callbacks send. *)
Fixpoint reactions {S A B} (f : S -> A -> S * list B) (s : S) (l : list A) : list B :=
  match l with [] => [] | x :: r => snd (f s x) ++ reactions f (fst (f s x)) r end.
Fixpoint after_all {S A B} (f : S -> A -> S * list B) (s : S) (l : list A) : S :=
  match l with [] => s | x :: r => after_all f (fst (f s x)) r end.
Lemma reactions_app : forall S A B (f : S -> A -> S * list B) l m s, reactions f s (l ++ m) = reactions f s l ++ reactions f (after_all f s l) m.
Proof. intros S A B f. induction l as [|x l IH]; intros m s; [reflexivity|]. cbn. now rewrite IH, app_assoc. Qed.
Lemma after_app : forall S A B (f : S -> A -> S * list B) l m s, after_all f s (l ++ m) = after_all f (after_all f s l) m.
Proof. intros S A B f. induction l as [|x l IH]; intros m s; [reflexivity|]. cbn. apply IH. Qed.

(** Nothing is lost, repeated or reordered between the host's senders and the
    guest, nor between the guest and the host's callbacks. *)
Theorem C84_in_order :
  forall g h c, any_run (chans_init g h) c ->
    ch_sent c = ch_taken c ++ ch_send c /\ ch_passed c = ch_handled c ++ ch_recv c /\
    reactions guest g (ch_taken c) = ch_passed c ++ ch_call c /\
    (List.length (ch_send c) <= a)%nat /\ (List.length (ch_recv c) <= b)%nat.
Proof.
  intros g h c R.
  assert (X : forall c0 c1, any_run c0 c1 -> (ch_sent c0 = ch_taken c0 ++ ch_send c0 /\ ch_passed c0 = ch_handled c0 ++ ch_recv c0 /\
    reactions guest g (ch_taken c0) = ch_passed c0 ++ ch_call c0 /\ ch_guest c0 = after_all guest g (ch_taken c0) /\
    (List.length (ch_send c0) <= a)%nat /\ (List.length (ch_recv c0) <= b)%nat) ->
    ch_sent c1 = ch_taken c1 ++ ch_send c1 /\ ch_passed c1 = ch_handled c1 ++ ch_recv c1 /\
    reactions guest g (ch_taken c1) = ch_passed c1 ++ ch_call c1 /\ ch_guest c1 = after_all guest g (ch_taken c1) /\
    (List.length (ch_send c1) <= a)%nat /\ (List.length (ch_recv c1) <= b)%nat).
  { induction 1 as [c0|c0 c1 c2 S _ IH]; [auto|]. intros (A1 & A2 & A3 & A4 & A5 & A6). apply IH. clear IH.
    destruct S as [S|S]; destruct S; cbn [ch_sent ch_taken ch_send ch_passed ch_handled ch_recv ch_call ch_guest];
      repeat match goal with H : ch_send c0 = _ |- _ => rewrite H in * | H : ch_recv c0 = _ |- _ => rewrite H in * | H : ch_call c0 = _ |- _ => rewrite H in * end;
      rewrite ?A1, ?A2, ?app_length in *; cbn [List.length] in *; rewrite <- ?app_assoc; cbn [app]; repeat split; auto; try lia.
    - rewrite reactions_app, A3, <- A4. cbn [reactions]. now rewrite !app_nil_r, <- app_assoc.
    - now rewrite after_app, <- A4.
    - rewrite A3, <- app_assoc. reflexivity.
    - now rewrite A3, <- app_assoc.
    - now rewrite A3, <- app_assoc.
    - now rewrite A3, <- app_assoc. }
  destruct (X _ c R) as (A1 & A2 & A3 & _ & A5 & A6); [cbn; repeat split; lia|]. auto.
Qed.

(** ** When the loops stop *)
Definition finished (c : chans) : Prop := ch_send c = [] /\ ch_recv c = [] /\ ch_call c = [] /\ ch_cb c = [].
(** Each loop waits for room in the channel that only the other one empties. *)
Definition deadlocked (c : chans) : Prop :=
  ch_call c <> [] /\ ch_cb c <> [] /\ List.length (ch_recv c) = b /\ List.length (ch_send c) = a.
Definition stopped (c : chans) : Prop := forall c', ~ loop_step c c'.
Theorem C84_stops_finished_or_deadlocked :
  (0 < a)%nat -> (0 < b)%nat -> forall g h c, any_run (chans_init g h) c -> (stopped c <-> finished c \/ deadlocked c).
Proof.
  intros Ha Hb g h c R. destruct (C84_in_order g h c R) as (_ & _ & _ & Ls & Lr). split.
  - intros S. destruct (ch_call c) as [|v r] eqn:Ec.
    + destruct (ch_send c) as [|f r] eqn:Es; [|destruct (S _ (LTake guest host a b c f r Ec Es))].
      destruct (ch_cb c) as [|f r] eqn:Eb; [|destruct (S _ (LSend guest host a b c f r Eb ltac:(rewrite Es; cbn; lia)))].
      destruct (ch_recv c) as [|v r] eqn:Er; [|destruct (S _ (LRecv guest host a b c v r Eb Er))]. left. repeat split; auto.
    + destruct (Nat.lt_ge_cases (List.length (ch_recv c)) b) as [L|L]; [destruct (S _ (LPass guest host a b c v r Ec L))|].
      destruct (ch_cb c) as [|f r'] eqn:Eb.
      * destruct (ch_recv c) as [|w r'] eqn:Er; [cbn in L; lia|]. destruct (S _ (LRecv guest host a b c w r' Eb Er)).
      * destruct (Nat.lt_ge_cases (List.length (ch_send c)) a) as [L'|L']; [destruct (S _ (LSend guest host a b c f r' Eb L'))|].
        right. unfold deadlocked. rewrite Ec, Eb. repeat split; try discriminate; lia.
  - intros [(A1 & A2 & A3 & A4)|(A1 & A2 & A3 & A4)] c' S; destruct S; try congruence; lia.
Qed.
(** A deadlock is for ever, whatever other goroutines do. *)
Theorem C84_deadlock_is_final :
  forall c c', deadlocked c -> any_run c c' -> c' = c.
Proof.
  intros c c' (A1 & A2 & A3 & A4) R. destruct R as [|c1 c2 [S|S] _]; [reflexivity|..]; destruct S; try congruence; lia.
Qed.
(** [k] steps of the loops. *)
Fixpoint loops (k : nat) (c c' : chans) : Prop :=
  match k with 0%nat => c' = c | S k' => exists c1, loop_step c c1 /\ loops k' c1 c' end.
(** Frames under way.  If there are at most [a + b + 1] of them and from then on
    every frame is answered by at most one, there is no deadlock. *)
Definition under_way (c : chans) : nat := (List.length (ch_send c) + List.length (ch_recv c) + List.length (ch_call c) + List.length (ch_cb c))%nat.
Theorem C84_few_under_way :
  forall calm : SG -> Prop, (forall s f, calm s -> calm (fst (guest s f)) /\ (List.length (snd (guest s f)) <= 1)%nat) -> (forall s v, (List.length (snd (host s v)) <= 1)%nat) ->
  forall k c c', calm (ch_guest c) -> (under_way c <= a + b + 1)%nat -> loops k c c' -> ~ deadlocked c'.
Proof.
  intros calm Q1 Q2. induction k as [|k IH]; intros c c' C U L.
  - cbn in L. subst c'. intros (A1 & A2 & A3 & A4). unfold under_way in U. destruct (ch_call c); [congruence|]. destruct (ch_cb c); [congruence|]. cbn in U. lia.
  - destruct L as (c1 & S & L). apply (IH c1 c'); [|clear IH L|exact L].
    { destruct S; cbn [ch_guest]; auto. apply (Q1 _ f C). }
    unfold under_way in *. destruct S as [f r E1 E2|v r E1 E2|v r E1 E2|f r E1 E2]; cbn [ch_send ch_recv ch_call ch_cb].
    + rewrite E1, E2 in U. cbn in U. destruct (Q1 (ch_guest c) f C). lia.
    + rewrite E1 in U. rewrite app_length. cbn in *. lia.
    + rewrite E1, E2 in U. cbn in U. specialize (Q2 (ch_host c) v). lia.
    + rewrite E1 in U. rewrite app_length. cbn in *. lia.
Qed.
(** A guest call with [a + b + 2] or more frames to pass never returns if the
    callback for each of them sends something: whatever other goroutines do, no
    further frame is ever taken from the channel, and the loops stop for good. *)
Fixpoint sends (s : SH) (l : list G) : nat := match l with [] => 0%nat | v :: r => (1 + List.length (snd (host s v)) + sends (fst (host s v)) r)%nat end.
Theorem C84_long_call_deadlocks :
  (0 < a)%nat -> (0 < b)%nat -> (forall s v, snd (host s v) <> []) -> forall g h c0 c, any_run (chans_init g h) c0 -> (a + b + 2 <= List.length (ch_call c0))%nat -> any_run c0 c ->
    ch_taken c = ch_taken c0 /\ ch_call c <> [] /\ (stopped c -> deadlocked c) /\ exists n, forall k c', loops k c c' -> (k <= n)%nat.
Proof.
  intros Ha Hb Q g h c0 c R0 L R.
  pose proof (run_trans _ _ _ R0 R) as Rc.
  destruct (C84_in_order g h c Rc) as (_ & _ & _ & Ls & Lr).
  set (one := fun c : chans => match ch_cb c with [] => 0%nat | _ :: _ => 1%nat end).
  set (J := fun c : chans => (a + b + 2 <= List.length (ch_call c) + List.length (ch_recv c) + List.length (ch_send c) + one c)%nat).
  assert (Jn : forall c, J c -> (List.length (ch_send c) <= a)%nat -> (List.length (ch_recv c) <= b)%nat -> ch_call c <> []).
  { intros x X X1 X2 X3. unfold J, one in X. rewrite X3 in X. cbn in X. destruct (ch_cb x); lia. }
  assert (Js : forall x y, J x -> (List.length (ch_send x) <= a)%nat -> (List.length (ch_recv x) <= b)%nat -> any_step x y -> J y /\ ch_taken y = ch_taken x).
  { intros x y X X1 X2 S. pose proof (Jn x X X1 X2) as N. unfold J, one in *. destruct S as [S|S]; [destruct S as [f r E1 E2|v r E1 E2|v r E1 E2|f r E1 E2]|destruct S]; cbn [ch_send ch_recv ch_call ch_cb ch_taken]; rewrite ?app_length; cbn [List.length].
    - congruence.
    - rewrite E1 in X. cbn [List.length] in X. split; [lia|reflexivity].
    - rewrite E1, E2 in X. cbn [List.length] in X. pose proof (Q (ch_host x) v) as Z. destruct (snd (host (ch_host x) v)); [congruence|]. split; [lia|reflexivity].
    - rewrite E1 in X. split; [destruct r; lia|reflexivity].
    - split; [lia|reflexivity]. }
  assert (Jr : forall x y, any_run x y -> any_run (chans_init g h) x -> J x -> J y /\ ch_taken y = ch_taken x).
  { induction 1 as [x|x y z S _ IH]; [auto|]. intros Rx X. destruct (C84_in_order g h x Rx) as (_ & _ & _ & L1 & L2).
    destruct (Js x y X L1 L2 S) as [X1 X2]. destruct IH as [X3 X4]; [|exact X1|split; [exact X3|congruence]].
    exact (run_trans _ _ _ Rx (run_one _ _ S)). }
  assert (J0 : J c0) by (unfold J; lia). destruct (Jr c0 c R R0 J0) as [Jc T]. split; [exact T|]. pose proof (Jn c Jc Ls Lr) as N. split; [exact N|]. split.
  - intros S. destruct (proj1 (C84_stops_finished_or_deadlocked Ha Hb g h c Rc) S) as [(_ & _ & Y & _)|Y]; [congruence|exact Y].
  - set (m := fun c : chans => (List.length (ch_cb c) + sends (ch_host c) (ch_recv c ++ ch_call c) + List.length (ch_call c))%nat).
    exists (m c).
    assert (X : forall k x y, any_run (chans_init g h) x -> J x -> loops k x y -> (k + m y <= m x)%nat).
    { induction k as [|k IH]; intros x y Rx Jx Lx; [cbn in Lx; subst; lia|]. destruct Lx as (x1 & S & Lx).
      destruct (C84_in_order g h x Rx) as (_ & _ & _ & L1 & L2). destruct (Js x x1 Jx L1 L2 (or_introl S)) as [X1 _].
      assert (Rx1 : any_run (chans_init g h) x1) by exact (run_trans _ _ _ Rx (run_one _ _ (or_introl S))).
      specialize (IH x1 y Rx1 X1 Lx). assert (m x1 + 1 <= m x)%nat; [|lia]. clear IH Lx. pose proof (Jn x Jx L1 L2) as Nx.
      unfold m. destruct S as [f r E1 E2|v r E1 E2|v r E1 E2|f r E1 E2]; cbn [ch_send ch_recv ch_call ch_cb ch_host].
      - congruence.
      - rewrite E1, <- app_assoc. cbn [app List.length]. lia.
      - rewrite E1, E2. cbn [app List.length sends]. lia.
      - rewrite E1. cbn [List.length]. lia. }
    intros k c' Lk. specialize (X k c c' Rc Jc Lk). lia.
Qed.
(** Callbacks that send nothing: the loops always finish. *)
Fixpoint work (s : SG) (l : list F) : nat := match l with [] => 0%nat | f :: r => (1 + 2 * List.length (snd (guest s f)) + work (fst (guest s f)) r)%nat end.
Theorem C84_silent_callbacks_finish :
  (forall s v, snd (host s v) = []) -> forall g h c, any_run (chans_init g h) c ->
    ~ deadlocked c /\ exists n, forall k c', loops k c c' -> (k <= n)%nat.
Proof.
  intros Q g h c R.
  assert (Z : ch_cb c = []).
  { assert (X : forall c0 c1, any_run c0 c1 -> ch_cb c0 = [] -> ch_cb c1 = []).
    { induction 1 as [c0|c0 c1 c2 S _ IH]; [auto|]. intros E. apply IH. destruct S as [S|S]; destruct S; cbn [ch_cb]; auto. congruence. }
    exact (X _ c R eq_refl). }
  split; [intros (_ & X & _); congruence|].
  set (m := fun c : chans => (work (ch_guest c) (ch_send c) + 2 * List.length (ch_call c) + List.length (ch_recv c))%nat).
  exists (m c).
  assert (X : forall k x y, loops k x y -> ch_cb x = [] -> (k + m y <= m x)%nat).
  { induction k as [|k IH]; intros x y L E; [cbn in L; subst; lia|]. destruct L as (x1 & S & L).
    assert (E' : ch_cb x1 = []) by (destruct S; cbn [ch_cb]; auto; congruence). specialize (IH x1 y L E').
    assert (m x1 + 1 <= m x)%nat; [|lia]. clear IH L. unfold m. destruct S as [f r E1 E2|v r E1 E2|v r E1 E2|f r E1 E2]; cbn [ch_guest ch_send ch_call ch_recv].
    - rewrite E1, E2. cbn [List.length work]. lia.
    - rewrite E1, app_length. cbn [List.length]. lia.
    - rewrite E2. cbn [List.length]. lia.
    - congruence. }
  intros k c' L. specialize (X k c c' L Z). lia.
Qed.
End ChanProps.

(** The channels of the code hold 100 frames each.  A guest that answers the first
    frame with [n] values and a host whose callback sends one frame for each (a
    channel that echoes its input, or a call made for each value). *)
Definition burst (n : nat) (first : bool) (f : nat) : bool * list nat := (false, if first then seq 0 n else []).
Definition echo (s : unit) (v : nat) : unit * list nat := (tt, [v]).
Definition c84_state (n : nat) : chans nat nat bool unit :=
  {| ch_guest := false; ch_host := tt; ch_send := []; ch_recv := []; ch_call := seq 0 n; ch_cb := []; ch_sent := [7%nat]; ch_taken := [7%nat]; ch_passed := []; ch_handled := [] |}.
Lemma c84_reached : forall host n, any_run (burst n) host 100 100 (chans_init true tt) (c84_state n).
Proof.
  intros host n. eapply Relation_Operators.rt1n_trans; [right; apply (LOther 100 _ 7%nat); cbn; lia|].
  eapply Relation_Operators.rt1n_trans; [left; apply (LTake (burst n) host 100 100 _ 7%nat []); reflexivity|]. constructor.
Qed.
(** So 202 values stop an instance for ever. *)
Theorem C84_two_hundred_and_two_refuted :
  ~ (forall (F G SG SH : Type) (guest : SG -> F -> SG * list G) (host : SH -> G -> SH * list F) g h c,
       any_run guest host 100 100 (chans_init g h) c -> exists c', any_run guest host 100 100 c c' /\ ch_call c' = []).
Proof.
  intros W. destruct (W nat nat bool unit (burst 202) echo true tt (c84_state 202) (c84_reached echo 202)) as (c' & R & E).
  destruct (C84_long_call_deadlocks (burst 202) echo 100 100 ltac:(lia) ltac:(lia) ltac:(discriminate) true tt _ c' (c84_reached echo 202) ltac:(cbn; lia) R) as (_ & N & _). contradiction.
Qed.
Definition listen (s : unit) (v : nat) : unit * list nat := (tt, []).
Example C84_example :
  (forall s v, snd (listen s v) = []) /\ any_run (burst 1000) listen 100 100 (chans_init true tt) (c84_state 1000) /\
  (forall s v, snd (echo s v) <> []) /\ any_run (burst 202) echo 100 100 (chans_init true tt) (c84_state 202) /\
  (100 + 100 + 2 <= List.length (ch_call (c84_state 202)))%nat /\
  (forall s f, s = false -> fst (burst 201 s f) = false /\ (List.length (snd (burst 201 s f)) <= 1)%nat) /\ (forall s v, (List.length (snd (echo s v)) <= 1)%nat) /\
  (under_way (c84_state 201) <= 100 + 100 + 1)%nat /\ ch_guest (c84_state 201) = false /\
  deadlocked 1 1 {| ch_guest := false; ch_host := tt; ch_send := [0%nat]; ch_recv := [2%nat]; ch_call := [3%nat]; ch_cb := [1%nat];
    ch_sent := [7%nat; 0%nat]; ch_taken := [7%nat]; ch_passed := [0%nat; 1%nat; 2%nat]; ch_handled := [0%nat; 1%nat] |}.
Proof.
  split; [reflexivity|]. split; [apply c84_reached|]. split; [discriminate|]. split; [apply c84_reached|]. split; [cbn; lia|]. split; [intros s f ->; cbn; lia|]. split; [intros; cbn; lia|].
  split; [cbn; lia|]. split; [reflexivity|]. repeat split; discriminate.
Qed.
Print Assumptions C84_in_order.
Print Assumptions C84_stops_finished_or_deadlocked.
Print Assumptions C84_deadlock_is_final.
Print Assumptions C84_few_under_way.
Print Assumptions C84_long_call_deadlocks.
Print Assumptions C84_silent_callbacks_finish.
Print Assumptions C84_two_hundred_and_two_refuted.
