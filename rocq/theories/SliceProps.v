(** C53, C77: the two slice sources. *)
From Verif Require Import Base MonoModel MonoFacts FluxModel FluxFacts.
From Coq Require Import Permutation.
Local Ltac Zify.zify_post_hook ::= Z.div_mod_to_equations.

Lemma perm4 {A} (a b c d : list A) : Permutation (a ++ b ++ c ++ d) (c ++ a ++ b ++ d).
Proof.
  rewrite (app_assoc a b), (app_assoc (a ++ b) c d), (app_assoc a b d), (app_assoc c (a ++ b) d). apply Permutation_app_tail, Permutation_app_comm.
Qed.

(** ** C53: [FromSlice]. *)
Section Slice.
Context {V E O : Type}.
Notation event := (fevent V E O).
Notation act := (fact V E O scode).
Notation item := (fitem V E O scode).
Notation conf := (fconf V E O scode (list V)).
(** Code that may request, cancel, register notifications and record
    observations, but neither calls the sink itself nor subscribes again. *)
Inductive polite : act -> Prop :=
| p_cancel s : polite (FCall s KCancel)
| p_request s n : polite (FRequest s n)
| p_notify id fn : (forall t g, Forall polite (fn t g)) -> polite (FNotify id fn)
| p_obs o : polite (FObs o).
Record polite_handlers (h : fhandlers V E O scode) : Prop := {
  ph_next : forall f, fh_next h = Some f -> forall t v, Forall polite (f t v);
  ph_complete : forall f, fh_complete h = Some f -> forall t, Forall polite (f t);
  ph_error : forall f, fh_error h = Some f -> forall t e, Forall polite (f t e);
  ph_request : forall f, fh_request h = Some f -> forall t s, Forall polite (f t s);
  ph_finally : forall f, fh_finally h = Some f -> forall t g, Forall polite (f t g) }.
(** The values handed to [Next]; the arguments of the calls of the source's
    request function. *)
Definition next_of (ev : event) : list V := match ev with VCalled 0 (KNext v) => [v] | _ => [] end.
Definition nexts (t : list event) := flat_map next_of t.
Definition srcreq_of (s : nat) (ev : event) : list Z := match ev with VSrcRequest s' n => if Nat.eqb s' s then [n] else [] | _ => [] end.
Definition srcreqs (s : nat) (t : list event) := flat_map (srcreq_of s) t.
Definition total (l : list Z) : nat := list_sum (map Z.to_nat l).

Definition sok (i : item) : Prop :=
  match i with
  | FAct a => polite a \/ exists n, a = FDo (SliceLoop 0 n)
  | FFire _ fn _ => forall t g, Forall polite (fn t g)
  | FReq s _ => s = 0%nat
  | _ => True
  end.
Definition tok (i : item) : Prop := match i with FAct a => polite a | FReq s _ => s = 0%nat | _ => False end.
Definition pendn_of (i : item) : list V := match i with FAct (FCall 0 (KNext v)) => [v] | _ => [] end.
Definition pendn (l : list item) := flat_map pendn_of l.
Definition loop_of (i : item) : nat := match i with FAct (FDo (SliceLoop _ n)) => Z.to_nat n | _ => 0%nat end.
Definition loops (l : list item) : nat := list_sum (map loop_of l).
Definition pcomp (i : item) : Prop := i = FAct (FCall 0 KComplete).
Definition isloop (i : item) : Prop := exists n, i = FAct (FDo (SliceLoop 0 n)).
Definition preq_of (i : item) : list Z := match i with FReq _ n => [n] | _ => [] end.
Definition preq (l : list item) := flat_map preq_of l.
Definition special (i : item) : Prop := i = FAct (FCall 0 KComplete) \/ exists v, i = FAct (FCall 0 (KNext v)).

Variable slice : list V.
Variable h : fhandlers V E O scode.
Record slinv (c : conf) : Prop := {
  s_pan : fc_panicked c = false;
  s_sub : exists m, fc_subs c = [m] /\ fs_h m = h /\ fs_request m = Some (fun _ n => [FDo (SliceLoop 0 n)]) /\ fs_cancel m = None;
  s_cb : Forall (fun cb => forall t g, Forall polite (snd cb t g)) (fc_callbacks c);
  s_th : Forall (Forall tok) (fc_threads c);
  s_stk : Forall sok (fc_stack c) \/ exists top rest, fc_stack c = top :: rest /\ special top /\ Forall sok rest;
  s_val : slice = nexts (fc_trace c) ++ pendn (fc_stack c) ++ fc_store c;
  s_le : (List.length (nexts (fc_trace c) ++ pendn (fc_stack c)) + loops (fc_stack c) <= total (srcreqs 0 (fc_trace c)))%nat;
  s_eq : fc_store c <> [] -> (List.length (nexts (fc_trace c) ++ pendn (fc_stack c)) + loops (fc_stack c) = total (srcreqs 0 (fc_trace c)))%nat;
  s_comp1 : In KComplete (fcalls 0 (fc_trace c)) \/ Exists pcomp (fc_stack c) -> fc_store c = [] /\ pendn (fc_stack c) = [] /\ srcreqs 0 (fc_trace c) <> [];
  s_comp2 : srcreqs 0 (fc_trace c) <> [] -> fc_store c = [] -> In KComplete (fcalls 0 (fc_trace c)) \/ Exists pcomp (fc_stack c) \/ Exists isloop (fc_stack c);
  s_loop : Exists isloop (fc_stack c) -> srcreqs 0 (fc_trace c) <> [];
  s_kinds : exists b, filter (fun k => negb (is_cancel k)) (fcalls 0 (fc_trace c)) = map KNext (nexts (fc_trace c)) ++ repeat KComplete b;
  s_perm : Permutation (demands 0 (fc_trace c)) (srcreqs 0 (fc_trace c) ++ preq (fc_stack c) ++ flat_map preq (fc_threads c)) }.

Lemma pendn_app a b : pendn (a ++ b) = pendn a ++ pendn b. Proof. apply flat_map_app. Qed.
Lemma preq_app a b : preq (a ++ b) = preq a ++ preq b. Proof. apply flat_map_app. Qed.
Lemma loops_app a b : loops (a ++ b) = (loops a + loops b)%nat. Proof. unfold loops. now rewrite map_app, list_sum_app. Qed.
Lemma nexts_app a b : nexts (a ++ b) = nexts a ++ nexts b. Proof. apply flat_map_app. Qed.
Lemma srcreqs_app s a b : srcreqs s (a ++ b) = srcreqs s a ++ srcreqs s b. Proof. apply flat_map_app. Qed.
Lemma fcalls_app s (a b : list event) : fcalls s (a ++ b) = fcalls s a ++ fcalls s b. Proof. apply flat_map_app. Qed.
Lemma demands_app s (a b : list event) : demands s (a ++ b) = demands s a ++ demands s b. Proof. apply flat_map_app. Qed.
Lemma total_app a b : total (a ++ b) = (total a + total b)%nat. Proof. unfold total. now rewrite map_app, list_sum_app. Qed.
Lemma sok_pendn l : Forall sok l -> pendn l = [].
Proof.
  induction 1 as [|x l Hx Hl IH]; [reflexivity|]. unfold pendn in *. cbn [flat_map]. rewrite IH, app_nil_r.
  destruct x as [[[|s] []| | | | | |]| | | | | | |]; try reflexivity. cbn in Hx. destruct Hx as [Hx|[? Hx]]; [inversion Hx|discriminate].
Qed.
Lemma sok_call s k : sok (FAct (FCall s k)) -> k = KCancel.
Proof. intros [P|[? P]]; [now inversion P|discriminate]. Qed.
Lemma sok_pcomp l : Forall sok l -> ~ Exists pcomp l.
Proof.
  intros H X. apply Exists_exists in X as (x & Hx & ->). apply (proj1 (Forall_forall _ _) H) in Hx. cbn in Hx.
  destruct Hx as [Hx|[? Hx]]; [inversion Hx|discriminate].
Qed.
Lemma polite_sok l : Forall polite l -> Forall sok (facts l).
Proof. induction 1; constructor; auto. now left. Qed.
Lemma polite_loops l : Forall polite l -> loops (facts l) = 0%nat.
Proof. induction 1 as [|x l Hx Hl IH]; [reflexivity|]. unfold loops in *. cbn. unfold list_sum, facts in IH. rewrite IH. destruct Hx; reflexivity. Qed.
Lemma polite_isloop l : Forall polite l -> ~ Exists isloop (facts l).
Proof. induction 1 as [|x l Hx Hl IH]; intros X; inversion X; subst; auto. destruct H0 as [n Hn]. injection Hn as ->. inversion Hx. Qed.
Lemma preq_facts l : preq (facts l) = []. Proof. induction l; auto. Qed.
Lemma tok_sok l : Forall tok l -> Forall sok l.
Proof. apply Forall_impl. intros [a| | | | | | |] H; cbn in *; try contradiction; auto. Qed.
Lemma tok_loops l : Forall tok l -> loops l = 0%nat.
Proof. induction 1 as [|x l Hx Hl IH]; [reflexivity|]. unfold loops in *. cbn. unfold list_sum in IH. rewrite IH. destruct x as [[]| | | | | | |]; cbn in *; auto. inversion Hx. Qed.
Lemma tok_isloop l : Forall tok l -> ~ Exists isloop l.
Proof. intros H X. apply Exists_exists in X as (x & Hx & n & ->). apply (proj1 (Forall_forall _ _) H) in Hx. inversion Hx. Qed.

(** A step that leaves the slice and the source's request alone. *)
Lemma slinv_plain c c' it rest ev l new :
  slinv c -> fc_stack c = it :: rest -> fc_panicked c' = false ->
  (exists m, fc_subs c' = [m] /\ fs_h m = h /\ fs_request m = Some (fun _ n => [FDo (SliceLoop 0 n)]) /\ fs_cancel m = None) ->
  Forall (fun cb => forall t g, Forall polite (snd cb t g)) (fc_callbacks c') ->
  fc_threads c' = fc_threads c ++ new -> Forall (Forall tok) new ->
  fc_trace c' = fc_trace c ++ ev -> fc_stack c' = l ++ rest -> fc_store c' = fc_store c -> Forall sok l ->
  pendn_of it = nexts ev -> loop_of it = loops l -> srcreqs 0 ev = [] ->
  (In KComplete (fcalls 0 ev) <-> pcomp it) -> ~ isloop it -> ~ Exists isloop l -> (exists b, filter (fun k => negb (is_cancel k)) (fcalls 0 ev) = map KNext (nexts ev) ++ repeat KComplete b) ->
  preq_of it = [] -> Permutation (demands 0 ev) (preq l ++ flat_map preq new) -> slinv c'.
Proof.
  intros [] Hk Hpan Hsub Hcb Hth Hnew Ht Hk' Hst Hl Hn Hlo Hsr Hco Hil1 Hil2 Her Hpr Hdm.
  rewrite Hk in *.
  assert (Hrest : Forall sok rest).
  { destruct s_stk0 as [F|(top & r & Hr & _ & F)]; [now inversion F|congruence]. }
  assert (P1 : pendn (it :: rest) = nexts ev) by (cbn; fold (pendn rest); now rewrite (sok_pendn _ Hrest), app_nil_r).
  assert (P2 : pendn (l ++ rest) = []) by (rewrite pendn_app, !sok_pendn by assumption; reflexivity).
  assert (P3 : loops (it :: rest) = (loops l + loops rest)%nat) by (rewrite <- Hlo; reflexivity).
  assert (P4 : ~ Exists pcomp (l ++ rest)) by (rewrite Exists_app; intros [X|X]; eapply sok_pcomp in X; eauto).
  assert (P5 : Exists pcomp (it :: rest) <-> pcomp it).
  { split; [|now left]. intros X. inversion X; subst; auto. eapply sok_pcomp in H0; [contradiction|assumption]. }
  assert (P6 : Exists isloop (it :: rest) <-> Exists isloop (l ++ rest)).
  { rewrite Exists_app. split; [intros X; inversion X; subst; tauto|]. intros [X|X]; [contradiction|now right]. }
  rewrite P1, P3 in *.
  constructor; rewrite ?Hk', ?Ht, ?Hst, ?Hth, ?nexts_app, ?srcreqs_app, ?Hsr, ?app_nil_r, ?fcalls_app, ?P2, ?app_nil_r; auto.
  - apply Forall_app; auto.
  - left. apply Forall_app; auto.
  - now rewrite s_val0, <- app_assoc.
  - rewrite app_length in *. rewrite loops_app. lia.
  - intros X. specialize (s_eq0 X). rewrite app_length in *. rewrite loops_app. lia.
  - intros X. destruct s_comp3 as (X1 & X2 & X3); [|split; [|split]; auto].
    destruct X as [X|X]; [|contradiction]. apply in_app_iff in X as [X|X]; [now left|right; apply P5; now apply Hco].
  - intros X Y. destruct (s_comp4 X Y) as [Z|[Z|Z]].
    + left. apply in_app_iff. now left.
    + left. apply in_app_iff. right. apply Hco. now apply P5.
    + right. right. now apply P6.
  - intros X. apply s_loop0. now apply P6.
  - destruct s_kinds0 as [b Hb]. destruct Her as [b' Hb']. rewrite filter_app, Hb, Hb', map_app. destruct (nexts ev) as [|v vs] eqn:Env.
    + exists (b + b')%nat. cbn [map app]. now rewrite app_nil_r, <- app_assoc, repeat_app.
    + assert (b = 0%nat) as ->.
      { destruct b; [reflexivity|]. exfalso. destruct s_comp3 as (_ & X & _); [left|discriminate].
        assert (X : In (@KComplete V E) (filter (fun k => negb (is_cancel k)) (fcalls 0 (fc_trace c)))).
        { rewrite Hb. apply in_app_iff. right. now left. }
        now apply filter_In in X as [X _]. }
      exists b'. cbn [repeat]. now rewrite app_nil_r, app_assoc.
  - rewrite demands_app, preq_app, flat_map_app, Hdm.
    replace (preq (it :: rest)) with (preq rest) in s_perm0 by (cbn; now rewrite Hpr). rewrite s_perm0.
    apply perm_trans with ((srcreqs 0 (fc_trace c) ++ preq rest ++ flat_map preq (fc_threads c)) ++ preq l ++ flat_map preq new); [reflexivity|].
    rewrite <- !app_assoc. apply Permutation_app_head. apply perm4.
Qed.
Hypothesis ph : polite_handlers h.
Variable wasm : bool.
Notation stepf := (fstep wasm slice_source (@slice_code V E O)).
Lemma slinv_start c i th : slinv c -> fc_stack c = [] -> nth_error (fc_threads c) i = Some th ->
  slinv {| fc_subs := fc_subs c; fc_cur := fc_cur c; fc_callbacks := fc_callbacks c; fc_store := fc_store c; fc_trace := fc_trace c;
           fc_stack := th; fc_threads := firstn i (fc_threads c) ++ skipn (S i) (fc_threads c); fc_panicked := fc_panicked c |}.
Proof.
  intros [] Hk Ht. rewrite Hk in *. 
  assert (T : Forall tok th) by (apply (proj1 (Forall_forall _ _) s_th0); eapply nth_error_In; eauto).
  assert (Hp : pendn th = []) by (apply sok_pendn; now apply tok_sok).
  constructor; cbn [fc_panicked fc_subs fc_callbacks fc_threads fc_stack fc_trace fc_store]; rewrite ?Hp, ?(tok_loops _ T); auto.
  - apply Forall_app. split; apply Forall_forall; intros x Hx; apply (proj1 (Forall_forall _ _) s_th0);
      [eapply in_firstn|eapply in_skipn]; eauto.
  - left. now apply tok_sok.
  - intros [X|X]; [apply s_comp3; now left|]. eapply sok_pcomp in X; [contradiction|now apply tok_sok].
  - intros X Y. destruct (s_comp4 X Y) as [Z|[Z|Z]]; [now left|inversion Z..].
  - intros X. eapply tok_isloop in X; [contradiction|assumption].
  - rewrite s_perm0. apply Permutation_app_head. change (preq []) with (@nil Z). cbn [app]. rewrite flat_map_app.
    destruct (nth_error_split _ _ Ht) as (l1 & l2 & E1 & E2). rewrite E1. rewrite <- E2.
    rewrite firstn_app, firstn_all, Nat.sub_diag. rewrite skipn_app, skipn_all2, Nat.sub_succ_l, Nat.sub_diag by lia.
    cbn [firstn skipn app]. rewrite app_nil_r, flat_map_app. cbn [flat_map].
    apply Permutation_app_swap_app.
Qed.
Lemma loop_sok c n rest : slinv c -> fc_stack c = FAct (FDo (SliceLoop 0 n)) :: rest -> Forall sok rest.
Proof. intros I Hk. destruct (s_stk _ I) as [F|(top & r & Hr & _ & F)]; rewrite Hk in *; [now inversion F|congruence]. Qed.
Notation with_ c st l := {| fc_subs := fc_subs c; fc_cur := fc_cur c; fc_callbacks := fc_callbacks c; fc_store := st; fc_trace := fc_trace c;
           fc_stack := l; fc_threads := fc_threads c; fc_panicked := false |}.
Lemma slinv_pop c n rest v vs : slinv c -> fc_stack c = FAct (FDo (SliceLoop 0 n)) :: rest -> fc_store c = v :: vs -> (n > 0)%Z ->
  slinv (with_ c vs (facts [FCall 0 (KNext v); FDo (SliceLoop 0 (n - 1))] ++ rest)).
Proof.
  intros I Hk Hst Hn. pose proof (loop_sok _ _ _ I Hk) as Hrest. pose proof (sok_pendn _ Hrest) as Hp. destruct I.
  rewrite Hk, Hst in *. cbn [facts map app].
  assert (P1 : pendn (FAct (FDo (SliceLoop 0 n)) :: rest) = []) by (cbn; exact Hp). rewrite P1 in *. cbn [app] in *. rewrite app_nil_r in *.
  assert (L1 : loops (FAct (FDo (SliceLoop 0 n)) :: rest) = (Z.to_nat n + loops rest)%nat) by reflexivity. rewrite L1 in *.
  assert (P2 : pendn (FAct (FCall 0 (KNext v)) :: FAct (FDo (SliceLoop 0 (n - 1))) :: rest) = [v]) by (cbn; fold (pendn rest); now rewrite Hp).
  assert (L2 : loops (FAct (FCall 0 (KNext v)) :: FAct (FDo (SliceLoop 0 (n - 1))) :: rest) = (Z.to_nat (n - 1) + loops rest)%nat) by reflexivity.
  constructor; cbn [fc_panicked fc_subs fc_callbacks fc_threads fc_stack fc_trace fc_store]; rewrite ?P2, ?L2; auto.
  - right. do 2 eexists. split; [reflexivity|]. split; [right; eauto|]. constructor; [right; eauto|assumption].
  - rewrite app_length. cbn [List.length]. lia.
  - intros _. specialize (s_eq0 ltac:(discriminate)). rewrite app_length. cbn [List.length]. lia.
  - intros X. exfalso. destruct X as [X|X]; [destruct s_comp3 as [? _]; [now left|discriminate]|].
    inversion X as [? ? Y|? ? Y]; subst; [discriminate Y|]. inversion Y as [? ? Z|? ? Z]; subst; [discriminate Z|]. eapply sok_pcomp; eauto.
  - intros X Y. right. right. right. left. eexists; reflexivity.
  - intros _. apply s_loop0. left. eexists; reflexivity.
Qed.
Lemma slinv_idle c n rest v vs : slinv c -> fc_stack c = FAct (FDo (SliceLoop 0 n)) :: rest -> fc_store c = v :: vs -> (n <= 0)%Z ->
  slinv (with_ c (v :: vs) (facts [] ++ rest)).
Proof.
  intros I Hk Hst Hn. pose proof (loop_sok _ _ _ I Hk) as Hrest. pose proof (sok_pendn _ Hrest) as Hp. destruct I.
  rewrite Hk, Hst in *. cbn [facts map app].
  assert (P1 : pendn (FAct (FDo (SliceLoop 0 n)) :: rest) = []) by (cbn; exact Hp). rewrite P1 in *. cbn [app] in *. rewrite app_nil_r in *.
  assert (L1 : loops (FAct (FDo (SliceLoop 0 n)) :: rest) = (Z.to_nat n + loops rest)%nat) by reflexivity. rewrite L1 in *.
  replace (Z.to_nat n) with 0%nat in * by lia.
  constructor; cbn [fc_panicked fc_subs fc_callbacks fc_threads fc_stack fc_trace fc_store]; rewrite ?Hp, ?app_nil_r; auto.
  - intros X. apply s_comp3. destruct X as [X|X]; [now left|right; now right].
  - discriminate.
Qed.
Lemma slinv_exhausted c n rest : slinv c -> fc_stack c = FAct (FDo (SliceLoop 0 n)) :: rest -> fc_store c = [] ->
  slinv (with_ c [] (facts [FCall 0 KComplete] ++ rest)).
Proof.
  intros I Hk Hst. pose proof (loop_sok _ _ _ I Hk) as Hrest. pose proof (sok_pendn _ Hrest) as Hp. destruct I.
  rewrite Hk, Hst in *. cbn [facts map app].
  assert (P1 : pendn (FAct (FDo (SliceLoop 0 n)) :: rest) = []) by (cbn; exact Hp). rewrite P1 in *. cbn [app] in *. rewrite app_nil_r in *.
  assert (L1 : loops (FAct (FDo (SliceLoop 0 n)) :: rest) = (Z.to_nat n + loops rest)%nat) by reflexivity. rewrite L1 in *.
  assert (P2 : pendn (FAct (FCall 0 KComplete) :: rest) = []) by (cbn; exact Hp).
  assert (L2 : loops (FAct (FCall 0 KComplete) :: rest) = loops rest) by reflexivity.
  constructor; cbn [fc_panicked fc_subs fc_callbacks fc_threads fc_stack fc_trace fc_store]; rewrite ?P2, ?L2, ?app_nil_r; auto.
  - right. do 2 eexists. split; [reflexivity|]. split; [now left|assumption].
  - lia.
  - congruence.
  - intros _. repeat split. apply s_loop0. left. eexists; reflexivity.
  - intros _ _. right. left. left. reflexivity.
  - intros _. apply s_loop0. left. eexists; reflexivity.
Qed.
Lemma slinv_req c n rest : slinv c -> fc_stack c = FReq 0 n :: rest ->
  slinv (femit c (fc_subs c) [VSrcRequest 0 n] (facts [FDo (SliceLoop 0 n)] ++ rest) []).
Proof.
  intros I Hk. 
  assert (Hrest : Forall sok rest) by (destruct (s_stk _ I) as [F|(top & r & Hr & _ & F)]; rewrite Hk in *; [now inversion F|congruence]).
  pose proof (sok_pendn _ Hrest) as Hp. destruct I. rewrite Hk in *. cbn [facts map app].
  assert (P1 : pendn (FReq 0 n :: rest) = []) by (cbn; exact Hp). rewrite P1 in *. cbn [app] in *. rewrite app_nil_r in *.
  assert (L1 : loops (FReq 0 n :: rest) = (loops rest)%nat) by reflexivity. rewrite L1 in *.
  assert (P2 : pendn (FAct (FDo (SliceLoop 0 n)) :: rest) = []) by (cbn; exact Hp).
  assert (L2 : loops (FAct (FDo (SliceLoop 0 n)) :: rest) = (Z.to_nat n + loops rest)%nat) by reflexivity.
  constructor; cbn [femit fc_panicked fc_subs fc_callbacks fc_threads fc_stack fc_trace fc_store];
    rewrite ?P2, ?L2, ?app_nil_r, ?nexts_app, ?srcreqs_app, ?fcalls_app, ?demands_app, ?total_app; cbn [nexts flat_map next_of srcreqs srcreq_of fcalls fcall_of demands demand_of app Nat.eqb]; rewrite ?app_nil_r; auto.
  - left. constructor; [right; eauto|assumption].
  - cbn. lia.
  - intros X. specialize (s_eq0 X). cbn. lia.
  - intros X. destruct s_comp3 as (A & B & D); [destruct X as [X|X]; [now left|right; inversion X; subst; [discriminate|now right]]|].
    repeat split; auto. intros Z. destruct (srcreqs 0 (fc_trace c)); discriminate.
  - intros _ Y. right. right. left. eexists; reflexivity.
  - intros _ Z. destruct (srcreqs 0 (fc_trace c)); discriminate.
  - rewrite s_perm0. rewrite <- app_assoc. apply Permutation_app_head. reflexivity.
Qed.
Ltac plain Ev L New := eapply slinv_plain with (ev := Ev) (l := L) (new := New); eauto; cbn [femit fc_panicked fc_subs fc_callbacks fc_threads fc_stack fc_trace fc_store app].
Definition fires g (l : list (N * (list event -> signal -> list act))) : list item := map (fun cb => FFire (fst cb) (snd cb) g) l.
Lemma fires_sok g l : Forall (fun cb => forall t g, Forall polite (snd cb t g)) l -> Forall sok (fires g l).
Proof. induction 1; constructor; auto. Qed.
Lemma fires_loops g l : loops (fires g l) = 0%nat.
Proof. induction l; auto. Qed.
Lemma fires_preq g l : preq (fires g l) = [].
Proof. induction l; auto. Qed.
Lemma fires_isloop g l : ~ Exists isloop (fires g l).
Proof. induction l; intros X; inversion X; subst; auto. destruct H0; discriminate. Qed.
Ltac sd :=
  repeat match goal with
  | |- Forall sok (_ ++ _) => apply Forall_app; split
  | |- Forall sok (facts _) => apply polite_sok
  | |- context [loops (_ ++ _)] => rewrite loops_app
  | |- Forall sok (fires _ _) => apply fires_sok; assumption
  | |- ~ Exists isloop (fires _ _) => apply fires_isloop
  | |- context [loops (fires _ _)] => rewrite fires_loops
  | |- context [preq (fires _ _)] => rewrite fires_preq
  | |- context [loops (facts _)] => rewrite polite_loops
  | |- context [preq (_ ++ _)] => rewrite preq_app
  | |- context [preq (facts _)] => rewrite preq_facts
  | |- ~ Exists isloop (_ ++ _) => rewrite Exists_app; intros [?|?]
  | H : Exists isloop (facts _) |- _ => apply polite_isloop in H; [contradiction|]
  | H : Exists isloop _ |- _ => inversion H; clear H; subst
  | H : isloop _ |- _ => destruct H; discriminate
  | |- ~ isloop _ => intros [? ?]; discriminate
  | |- ~ Exists _ _ => intros ?
  | |- Forall _ [] => constructor
  | |- Forall _ (_ :: _) => constructor
  end;
  try reflexivity;
  try (cbn; unfold pcomp; intuition (congruence || discriminate); fail);
  try (rewrite ?app_nil_r, <- ?app_assoc; reflexivity);
  try (exists 0%nat; reflexivity); try (exists 1%nat; reflexivity);
  try match goal with |- pendn_of (FAct (FCall ?s _)) = _ => destruct s; reflexivity end;
  try match goal with
      | Hh : fs_h ?m = h, Hf : _ (fs_h ?m) = Some _ |- Forall polite _ => rewrite Hh in Hf;
          (eapply (ph_next _ ph) || eapply (ph_complete _ ph) || eapply (ph_error _ ph) || eapply (ph_request _ ph) || eapply (ph_finally _ ph)); exact Hf
      | Hf : forall t g, Forall polite _ |- Forall polite _ => apply Hf
      end;
  try match goal with H : forall m', fs_h m' = _ -> _ |- _ => apply H; reflexivity end.
Lemma slinv_step c i : slinv c -> slinv (stepf c i).
Proof.
  intros I. unfold fstep. rewrite (s_pan _ I). destruct (fc_stack c) as [|it rest] eqn:Hk.
  { destruct (nth_error (fc_threads c) i) as [th|] eqn:Et; [|exact I]. pose proof (slinv_start c i th I Hk Et) as X. now rewrite (s_pan _ I) in X. }
  pose proof (s_pan _ I) as Hpan. destruct (s_sub _ I) as (m & Hm & Hh & Hrq & Hcn).
  pose proof (s_stk _ I) as Hok. rewrite Hk in Hok. pose proof (s_cb _ I) as Hcb.
  assert (Sk : forall s, s <> 0%nat -> nth_error (fc_subs c) s = None).
  { intros [|s] H; [congruence|]. rewrite Hm. cbn. apply nth_nil. }
  assert (S0 : nth_error (fc_subs c) 0 = Some m) by now rewrite Hm.
  assert (Hrest : Forall sok rest).
  { destruct Hok as [F|(top & r & Hr & _ & F)]; [now inversion F|congruence]. }
  assert (Sub : forall m', fs_h m' = fs_h m -> fs_request m' = fs_request m -> fs_cancel m' = fs_cancel m ->
             exists m0, mset (fc_subs c) 0 m' = [m0] /\ fs_h m0 = h /\ fs_request m0 = Some (fun _ n => [FDo (SliceLoop 0 n)]) /\ fs_cancel m0 = None).
  { intros m' E1 E2 E3. exists m'. rewrite Hm. repeat split; congruence. }
  assert (Sub1 : exists m0, fc_subs c = [m0] /\ fs_h m0 = h /\ fs_request m0 = Some (fun _ n => [FDo (SliceLoop 0 n)]) /\ fs_cancel m0 = None) by eauto.
  destruct it as [[s k|s rq cn|s n|h'|id fn|o|k]|s|s|s g|s g|id fn g|s n|s]; cbn [do_fitem].
  - unfold do_fcall. destruct (Nat.eq_dec s 0) as [-> |Hs].
    2:{ rewrite (Sk s Hs). assert (k = KCancel) as ->.
        { destruct Hok as [F|(top & r & Hr & [Sp|[v Sp]] & F)].
          - apply Forall_inv in F. now apply sok_call in F.
          - injection Hr as <- <-. injection Sp as -> ->. congruence.
          - injection Hr as <- <-. injection Sp as -> ->. congruence. }
        plain (@nil event) (@nil item) (@nil (list item)); try reflexivity; sd. }
    rewrite S0. destruct k as [v| |e|].
    + destruct (fs_closed m).
      * plain [VCalled 0 (KNext v) : event] (@nil item) (@nil (list item)); sd.
      * destruct (fh_next (fs_h m)) as [f|] eqn:Hf.
        -- plain [VCalled 0 (KNext v) : event; VOnNext 0 v] (facts (f (fc_trace c ++ [VCalled 0 (KNext v); VOnNext 0 v]) v) ++ [FAfterNext 0]) (@nil (list item)); sd.
        -- plain [VCalled 0 (KNext v) : event] [FAfterNext 0 : item] (@nil (list item)); sd.
    + destruct (fs_closed m).
      * plain [VCalled 0 KComplete : event] (@nil item) (@nil (list item)); sd.
      * destruct (fh_complete (fs_h m)) as [f|] eqn:Hf.
        -- plain [VCalled 0 KComplete : event; VOnComplete 0] (facts (f (fc_trace c ++ [VCalled 0 KComplete; VOnComplete 0])) ++ [FFinal 0 SigComplete]) (@nil (list item)); sd.
        -- plain [VCalled 0 KComplete : event] [FFinal 0 SigComplete : item] (@nil (list item)); sd.
    + exfalso. destruct Hok as [F|(top & r & Hr & [Sp|[v Sp]] & F)]; [|congruence..].
      apply Forall_inv, sok_call in F. discriminate.
    + rewrite Hcn. plain [VCalled 0 KCancel : event] [FCancelFin 0 : item] (@nil (list item)); sd.
  - exfalso. destruct Hok as [F|(top & r & Hr & [Sp|[v Sp]] & F)]; [|congruence..]. apply Forall_inv in F. destruct F as [P|[? P]]; [inversion P|discriminate].
  - unfold do_request. destruct (Nat.eq_dec s 0) as [-> |Hs].
    2:{ rewrite (Sk s Hs). plain (@nil event) (@nil item) (@nil (list item)); sd. }
    rewrite S0, Hrq. destruct wasm.
    + plain [VDemand 0 n : event] [FReq 0 n : item] (@nil (list item)); sd.
    + plain [VDemand 0 n : event] (@nil item) [[FReq 0 n : item]]; sd.
  - exfalso. destruct Hok as [F|(top & r & Hr & [Sp|[v Sp]] & F)]; [|congruence..]. apply Forall_inv in F. destruct F as [P|[? P]]; [inversion P|discriminate].
  - assert (Pf : forall t g, Forall polite (fn t g)).
    { destruct Hok as [F|(top & r & Hr & [Sp|[v Sp]] & F)]; [|congruence..]. apply Forall_inv in F. destruct F as [P|[? P]]; [now inversion P|discriminate]. }
    unfold do_fnotify. destruct (match fc_cur c with Some _ => _ | None => _ end) as [m0|]; [destruct (fs_closed m0)|].
    + plain [VRegistered id : event] [FFire id fn (fs_signal m0) : item] (@nil (list item)); sd.
    + plain [VRegistered id : event] (@nil item) (@nil (list item)); sd. apply Forall_app; auto.
    + plain [VRegistered id : event] (@nil item) (@nil (list item)); sd. apply Forall_app; auto.
  - plain [VObs o : event] (@nil item) (@nil (list item)); sd.
  - destruct k as [s n]. assert (s = 0%nat) as ->.
    { destruct Hok as [F|(top & r & Hr & [Sp|[v Sp]] & F)]; [|congruence..]. apply Forall_inv in F. destruct F as [P|[? P]]; [inversion P|congruence]. }
    rewrite Hpan. unfold slice_code. destruct (fc_store c) as [|v vs] eqn:Est; [|destruct (n >? 0)%Z eqn:En].
    + apply slinv_exhausted with (n := n); auto.
    + apply slinv_pop with (n := n); auto. lia.
    + apply slinv_idle with (n := n); auto. lia.
  - destruct (nth_error (fc_subs c) s) as [m0|].
    + destruct (fs_n m0 =? 0)%Z.
      * plain (@nil event) [FHandle s : item] (@nil (list item)); sd.
      * plain (@nil event) (@nil item) (@nil (list item)); sd.
    + plain (@nil event) (@nil item) (@nil (list item)); sd.
  - unfold do_handle. destruct (Nat.eq_dec s 0) as [-> |Hs].
    2:{ rewrite (Sk s Hs). plain (@nil event) (@nil item) (@nil (list item)); sd. }
    rewrite S0. destruct (fh_norequest (fs_h m)); [plain (@nil event) (@nil item) (@nil (list item)); sd|].
    destruct (fh_request (fs_h m)) as [f|] eqn:Hf.
    + plain [VOnRequest 0 : event] (facts (f (fc_trace c ++ [VOnRequest 0]) 0%nat)) (@nil (list item)); sd.
    + plain (@nil event) [FAct (FRequest 0 2147483647) : item] (@nil (list item)); sd. left. constructor.
  - unfold do_ffinal. destruct (Nat.eq_dec s 0) as [-> |Hs].
    2:{ rewrite (Sk s Hs). plain (@nil event) (@nil item) (@nil (list item)); sd. }
    rewrite S0. destruct (fh_finally (fs_h m)) as [f|] eqn:Hf.
    + plain [VSignal 0 g : event; VFinally 0 g] (facts (f (fc_trace c ++ [VSignal 0 g : event; VFinally 0 g]) g) ++ [FLoop 0 g]) (@nil (list item)); sd.
    + plain [VSignal 0 g : event] [FLoop 0 g : item] (@nil (list item)); sd.
  - plain (@nil event) (fires g (fc_callbacks c)) (@nil (list item)); sd.
  - assert (Pf : forall t g, Forall polite (fn t g)).
    { destruct Hok as [F|(top & r & Hr & [Sp|[v Sp]] & F)]; [|congruence..]. now apply Forall_inv in F. }
    plain [VFired id g : event] (facts (fn (fc_trace c ++ [VFired id g]) g)) (@nil (list item)); sd.
  - assert (s = 0%nat) as ->.
    { destruct Hok as [F|(top & r & Hr & [Sp|[v Sp]] & F)]; [|congruence..]. now apply Forall_inv in F. }
    unfold do_req. rewrite S0, Hrq. now apply slinv_req.
  - unfold do_cancelfin. destruct (Nat.eq_dec s 0) as [-> |Hs].
    2:{ rewrite (Sk s Hs). plain (@nil event) (@nil item) (@nil (list item)); sd. }
    rewrite S0. destruct (fh_finally (fs_h m)) as [f|] eqn:Hf.
    + plain [VFinally 0 SigCancel : event] (facts (f (fc_trace c ++ [VFinally 0 SigCancel : event]) SigCancel)) (@nil (list item)); sd.
    + plain (@nil event) (@nil item) (@nil (list item)); sd.
Qed.
Lemma slinv_run sched c : slinv c -> slinv (frun wasm slice_source slice_code sched c).
Proof. revert c. induction sched; intros c I; [exact I|]. cbn. apply IHsched. now apply slinv_step. Qed.
Lemma slinv_init threads : Forall (Forall polite) threads ->
  slinv (frun wasm slice_source slice_code [0; 0; 0]%nat (finit slice ([FSubscribe h] :: threads))).
Proof.
  intros Hth. cbn. constructor; cbn [femit fc_panicked fc_subs fc_callbacks fc_threads fc_stack fc_trace fc_store].
  - reflexivity.
  - eexists. split; [reflexivity|]. auto.
  - constructor.
  - rewrite app_nil_r. induction Hth as [|th l H Hl IH]; constructor; auto. clear - H. induction H; constructor; auto.
  - left. repeat constructor.
  - reflexivity.
  - reflexivity.
  - reflexivity.
  - intros [[]|X]. inversion X as [? ? Y|? ? Y]; subst; [discriminate Y|inversion Y].
  - intros X. now cbn in X.
  - intros X. inversion X as [? ? [? Y]|? ? Y]; subst; [discriminate Y|inversion Y].
  - exists 0%nat. reflexivity.
  - cbn. rewrite app_nil_r. clear. induction threads as [|th l IH]; cbn; [constructor|]. now rewrite preq_facts.
Qed.
End Slice.

Definition from_slice {V E O} (wasm : bool) (slice : list V) (h : fhandlers V E O scode) (threads : list (list (fact V E O scode))) (sched : list nat) : fconf V E O scode (list V) :=
  frun wasm slice_source slice_code (0 :: 0 :: 0 :: sched)%nat (finit slice ([FSubscribe h] :: threads)).
Lemma from_slice_inv V E O wasm slice (h : fhandlers V E O scode) threads sched :
  polite_handlers h -> Forall (Forall polite) threads -> slinv slice h (from_slice wasm slice h threads sched).
Proof. intros H1 H2. unfold from_slice. change (0 :: 0 :: 0 :: sched)%nat with ([0; 0; 0] ++ sched)%nat. unfold frun. rewrite fold_left_app.
  apply (slinv_run slice h H1 wasm sched). now apply slinv_init. Qed.

(** At every moment a prefix of the slice has been handed to the sink, in order
    and with no more values than asked of the source so far. *)
Theorem C53_prefix_within_demand :
  forall V E O wasm slice (h : fhandlers V E O scode) threads sched,
    polite_handlers h -> Forall (Forall polite) threads ->
    let t := fc_trace (from_slice wasm slice h threads sched) in
    nexts t = firstn (List.length (nexts t)) slice /\ (List.length (nexts t) <= total (srcreqs 0 t))%nat /\
    (forall e, ~ In (KError e) (fcalls 0 t)) /\ fc_panicked (from_slice wasm slice h threads sched) = false.
Proof.
  intros V E O wasm slice h threads sched H1 H2 t. destruct (from_slice_inv V E O wasm slice h threads sched H1 H2). fold t in s_val0, s_le0, s_kinds0.
  repeat split.
  - rewrite s_val0. rewrite firstn_app, firstn_all, Nat.sub_diag. cbn. now rewrite app_nil_r.
  - rewrite app_length in s_le0. lia.
  - intros e X. destruct s_kinds0 as [b Hb]. assert (Y : In (KError e) (filter (fun k => negb (is_cancel k)) (fcalls 0 t))) by (apply filter_In; auto).
    rewrite Hb in Y. apply in_app_iff in Y as [Y|Y]; [apply in_map_iff in Y as (? & ? & _); discriminate|apply repeat_spec in Y; discriminate].
  - assumption.
Qed.
(** Whenever all goroutines are done: exactly the requested number of values has
    been handed over (or the whole slice), and Complete has been called exactly
    if there was a request and nothing is left. *)
Theorem C53_exactly_what_was_requested :
  forall V E O wasm slice (h : fhandlers V E O scode) threads sched,
    polite_handlers h -> Forall (Forall polite) threads ->
    let c := from_slice wasm slice h threads sched in
    fc_stack c = [] -> fc_threads c = [] ->
    nexts (fc_trace c) = firstn (total (demands 0 (fc_trace c))) slice /\
    (In KComplete (fcalls 0 (fc_trace c)) <-> demands 0 (fc_trace c) <> [] /\ (List.length slice <= total (demands 0 (fc_trace c)))%nat).
Proof.
  intros V E O wasm slice h threads sched H1 H2 c Hk Hth. destruct (from_slice_inv V E O wasm slice h threads sched H1 H2) as [_ _ _ _ _ s_val0 s_le0 s_eq0 s_comp3 s_comp4 _ _ s_perm0]. fold c in s_val0, s_le0, s_eq0, s_comp3, s_comp4, s_perm0.
  rewrite Hk in s_val0, s_le0, s_eq0, s_comp3, s_comp4, s_perm0. rewrite Hth in s_perm0. change (preq []) with (@nil Z) in s_perm0. cbn [flat_map app] in s_perm0. rewrite app_nil_r in s_perm0. change (pendn []) with (@nil V) in *. rewrite app_nil_r in *. cbn [app] in *.
  change (loops []) with 0%nat in *. rewrite Nat.add_0_r in *.
  assert (T : total (demands 0 (fc_trace c)) = total (srcreqs 0 (fc_trace c))).
  { unfold total. apply Permutation_list_sum. now apply Permutation_map. }
  assert (N1 : demands 0 (fc_trace c) <> [] <-> srcreqs 0 (fc_trace c) <> []).
  { split; intros X Y; apply X; rewrite Y in s_perm0; [now apply Permutation_sym, Permutation_nil in s_perm0|now apply Permutation_nil in s_perm0]. }
  rewrite T, N1. destruct (fc_store c) as [|v vs] eqn:Est.
  - rewrite app_nil_r in s_val0. rewrite s_val0. split.
    + now rewrite firstn_all2 by lia.
    + split.
      * intros X. destruct s_comp3 as (_ & _ & X3); auto.
      * intros [X _]. destruct (s_comp4 X eq_refl) as [Y|[Y|Y]]; [assumption|inversion Y..].
  - specialize (s_eq0 ltac:(discriminate)). rewrite <- s_eq0, s_val0. split.
    + rewrite firstn_app, firstn_all, Nat.sub_diag. cbn. now rewrite app_nil_r.
    + rewrite app_length. cbn [List.length]. split; [|lia]. intros X. destruct s_comp3 as (X1 & _); auto. discriminate.
Qed.
(** So a subscriber with all callbacks that does not cancel sees exactly that. *)
Theorem C53_subscriber_sees :
  forall V E O wasm slice (h : fhandlers V E O scode) threads sched,
    polite_handlers h -> Forall (Forall polite) threads -> fh_next h <> None -> fh_complete h <> None ->
    let c := from_slice wasm slice h threads sched in
    let asked := demands 0 (fc_trace c) in
    fc_stack c = [] -> fc_threads c = [] -> ~ In KCancel (fcalls 0 (fc_trace c)) -> asked <> [] ->
    delivered 0 (fc_trace c) = map ONext (firstn (total asked) slice) ++ (if (List.length slice <=? total asked)%nat then [OComplete] else []).
Proof.
  intros V E O wasm slice h threads sched H1 H2 Hn Hc c asked Hk Hth Hnc Has.
  destruct (C53_exactly_what_was_requested V E O wasm slice h threads sched H1 H2 Hk Hth) as [X1 X2]. fold c in X1, X2. fold asked in X1, X2.
  destruct (from_slice_inv V E O wasm slice h threads sched H1 H2). fold c in s_sub0, s_kinds0. destruct s_sub0 as (m & Hm & Hh & _).
  pose proof (proj1 (finv_run wasm slice_source slice_code (0 :: 0 :: 0 :: sched)%nat _ (finv_init wasm slice ([FSubscribe h] :: threads))) 0%nat) as I.
  cbv zeta in I. change (frun wasm slice_source slice_code _ _) with c in I. rewrite Hm in I. cbn [nth_error] in I.
  rewrite (i_deliv _ _ _ _ _ _ I), Hh. destruct s_kinds0 as [b Hb].
  assert (F : filter (fun k => negb (is_cancel k)) (fcalls 0 (fc_trace c)) = fcalls 0 (fc_trace c)).
  { clear - Hnc. induction (fcalls 0 (fc_trace c)) as [|k l IH]; [reflexivity|]. cbn. destruct k; cbn; try (f_equal; apply IH; intros X; apply Hnc; now right). exfalso. apply Hnc. now left. }
  rewrite F, X1 in Hb. rewrite Hb in *. clear - X2 Hn Hc Has.
  assert (G : forall l, flat_map (visible h) (effective (map KNext l ++ repeat KComplete b)) = map ONext l ++ (if Nat.eqb b 0 then [] else [OComplete])).
  { induction l as [|v l IH]; cbn [map app effective is_term].
    - destruct b; [reflexivity|]. cbn. destruct (fh_complete h); [reflexivity|congruence].
    - cbn [flat_map visible]. destruct (fh_next h); [|congruence]. cbn [app]. now rewrite IH. }
  rewrite G. f_equal.
  assert (K : In KComplete (map KNext (firstn (total asked) slice) ++ repeat (@KComplete V E) b) <-> b <> 0%nat).
  { rewrite in_app_iff. split.
    - intros [X|X]; [apply in_map_iff in X as (? & ? & _); discriminate|]. destruct b; [destruct X|discriminate].
    - intros X. right. destruct b; [congruence|now left]. }
  rewrite K in X2. destruct (Nat.eqb_spec b 0) as [Eb|Eb]; destruct (Nat.leb_spec (List.length slice) (total asked)); auto; exfalso.
  - apply X2; auto.
  - apply X2 in Eb. lia.
Qed.
(** A subscriber on WebAssembly that asks for more from within OnNext. *)
Definition c53_h : fhandlers N N N scode :=
  FHandlers (Some (fun _ v => [FRequest 0 (Z.of_N v - 5)])) (Some (fun _ => [])) None (Some (fun _ s => [FRequest s 1])) None false.
Definition c53_threads : list (list (fact N N N scode)) := [[FNotify 1 (fun _ _ => [])]; [FRequest 0 (-3)]].
Definition c53_conf : fconf N N N scode (list N) := from_slice true [5; 6; 7; 8] c53_h c53_threads (repeat 0%nat 60).
Lemma c53_polite : polite_handlers c53_h /\ Forall (Forall polite) c53_threads.
Proof.
  split; [constructor; cbn; intros f Hf; inversion Hf; subst; repeat constructor|repeat constructor].
Qed.
Example C53_example :
  fc_stack c53_conf = [] /\ fc_threads c53_conf = [] /\ delivered 0 (fc_trace c53_conf) = [ONext 5; ONext 6; ONext 7; ONext 8; OComplete] /\
  demands 0 (fc_trace c53_conf) = [1; 0; 1; 1; 2; 3; -3]%Z.
Proof. vm_compute. repeat split. Qed.
Print Assumptions C53_prefix_within_demand.
Print Assumptions C53_exactly_what_was_requested.
Print Assumptions C53_subscriber_sees.

(** ** C77: [SliceResponse] when requests are synchronous. *)
Definition one_more : fhandlers N N N rcode :=
  FHandlers (Some (fun _ _ => [FRequest 0 1])) (Some (fun _ => [])) (Some (fun _ _ => [])) (Some (fun _ s => [FRequest s 1])) None false.
Lemma frun_app V E O C St wasm source code a b (c : fconf V E O C St) : frun wasm source code (a ++ b) c = frun wasm source code b (frun wasm source code a c).
Proof. apply fold_left_app. Qed.
Notation resp_run := (frun true resp_source (@resp_code N N N)).
Lemma one_more_cycle v slice (c : fconf N N N rcode (list N)) rest m :
  fc_panicked c = false -> fc_stack c = FAct (FRequest 0 1) :: rest -> fc_store c = v :: slice ->
  fc_subs c = [m] -> fs_closed m = false -> fs_h m = one_more -> fs_request m = Some (fun _ n => [FDo (RespStart 0 n)]) ->
  let c' := resp_run (repeat 0%nat 5) c in
  fc_panicked c' = false /\ (exists rest', fc_stack c' = FAct (FRequest 0 1) :: rest') /\ fc_store c' = v :: slice /\
  (exists m', fc_subs c' = [m'] /\ fs_closed m' = false /\ fs_h m' = one_more /\ fs_request m' = Some (fun _ n => [FDo (RespStart 0 n)])) /\
  delivered 0 (fc_trace c') = delivered 0 (fc_trace c) ++ [ONext v].
Proof.
  destruct c as [subs cur cbs store tr stack ths pan]. destruct m as [cl n er rq cn sg hh]. cbn [fc_panicked fc_stack fc_store fc_subs fs_closed fs_h fs_request].
  intros -> -> -> -> -> -> ->. cbn.
  change (Pos.to_nat 1) with 1%nat. cbn. rewrite Nat.min_0_r. cbn.
  split; [reflexivity|]. split; [eauto|]. split; [reflexivity|]. split; [eexists; split; [reflexivity|auto]|].
  unfold delivered. rewrite !flat_map_app. cbn. now rewrite !app_nil_r.
Qed.
(** A subscriber that asks for one more value at each value: for every [k] there
    is an execution in which it has been given the first element [k] times,
    although it asked for [k] values of a slice of any (non-zero) length. *)
Theorem C77_slice_response_repeats_refuted :
  forall v slice k, exists sched,
    let c := resp_run sched (finit (v :: slice) [[FSubscribe one_more]]) in
    delivered 0 (fc_trace c) = repeat (ONext v) k /\ fc_panicked c = false /\ fc_stack c <> [].
Proof.
  intros v slice k. 
  cut (exists sched, let c := resp_run sched (finit (v :: slice) [[FSubscribe one_more]]) in
    fc_panicked c = false /\ (exists rest', fc_stack c = FAct (FRequest 0 1) :: rest') /\ fc_store c = v :: slice /\
    (exists m', fc_subs c = [m'] /\ fs_closed m' = false /\ fs_h m' = one_more /\ fs_request m' = Some (fun _ n => [FDo (RespStart 0 n)])) /\
    delivered 0 (fc_trace c) = repeat (ONext v) k).
  { intros (sched & A & (r & B) & _ & _ & D). exists sched. cbv zeta. repeat split; auto. rewrite B. discriminate. }
  induction k as [|k IH].
  - exists (repeat 0%nat 4). cbn. split; [reflexivity|]. split; [eauto|]. split; [reflexivity|]. split; [|reflexivity]. eexists. split; [reflexivity|auto].
  - destruct IH as (sched & A & (r & B) & D & (m & E1 & E2 & E3 & E4) & F). exists (sched ++ repeat 0%nat 5). cbv zeta.
    rewrite frun_app. revert A B D E1 E2 E3 E4 F. generalize (resp_run sched (finit (v :: slice) [[FSubscribe one_more]])). intros c A B D E1 E2 E3 E4 F.
    destruct (one_more_cycle v slice c r m A B D E1 E2 E3 E4) as (A' & B' & D' & E' & F').
    split; [exact A'|]. split; [exact B'|]. split; [exact D'|]. split; [exact E'|]. rewrite F', F. cbn [repeat]. now rewrite <- repeat_cons.
Qed.
(** A negative count crashes it; [FromSlice] ignores it. *)
Theorem C77_negative_request_panics :
  forall V E O wasm slice (h : fhandlers V E O rcode) n, (n < 0)%Z -> fh_norequest h = true ->
    fc_panicked (frun wasm resp_source resp_code (repeat 0%nat 9) (finit slice [[FSubscribe h]; [FRequest 0 n]])) = true.
Proof.
  intros V E O wasm slice h n Hn Hr. destruct n; try lia. destruct wasm; cbn; rewrite Hr; reflexivity.
Qed.
(** On the host, where each request has its own goroutine, the same subscriber
    gets the slice. *)
Example C77_example :
  delivered 0 (fc_trace (frun false resp_source resp_code (repeat 0%nat 60) (finit [5; 6; 7] [[FSubscribe one_more]]))) = [ONext 5; ONext 6; ONext 7; OComplete] /\
  delivered 0 (fc_trace (frun true resp_source resp_code (repeat 0%nat 60) (finit [5; 6; 7] [[FSubscribe one_more]]))) = repeat (ONext 5) 11.
Proof. vm_compute. repeat split. Qed.
Print Assumptions C77_slice_response_repeats_refuted.
Print Assumptions C77_negative_request_panics.
