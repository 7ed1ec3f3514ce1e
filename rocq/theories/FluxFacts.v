(** Invariants of the flux machine. *)
From Verif Require Import Base MonoModel MonoFacts FluxModel.
From Coq Require Import Permutation.
Local Ltac Zify.zify_post_hook ::= Z.div_mod_to_equations.

(** *** What a trace says about subscription [s] *)
Section Spec.
Context {V E O : Type}.
Notation event := (fevent V E O).
Definition ev_sub (ev : event) : option nat :=
  match ev with
  | VCalled s _ | VOnNext s _ | VOnComplete s | VOnError s _ | VOnRequest s | VFinally s _ | VSignal s _
  | VSubscribed s _ | VDemand s _ | VSrcRequest s _ | VSrcCancel s => Some s
  | _ => None
  end.
Definition fcall_of (s : nat) (ev : event) : list (fcall V E) :=
  match ev with VCalled s' k => if Nat.eqb s' s then [k] else [] | _ => [] end.
Definition fcalls (s : nat) (t : list event) := flat_map (fcall_of s) t.
Definition deliv_of (s : nat) (ev : event) : list (fobs V E) :=
  match ev with
  | VOnNext s' v => if Nat.eqb s' s then [ONext v] else []
  | VOnComplete s' => if Nat.eqb s' s then [OComplete] else []
  | VOnError s' e => if Nat.eqb s' s then [OError e] else []
  | _ => []
  end.
Definition delivered (s : nat) (t : list event) := flat_map (deliv_of s) t.
Definition fsignal_of (s : nat) (ev : event) : list signal :=
  match ev with VSignal s' g => if Nat.eqb s' s then [g] else [] | _ => [] end.
Definition fsignals (s : nat) (t : list event) := flat_map (fsignal_of s) t.
Definition ffinal_of (s : nat) (ev : event) : list signal :=
  match ev with VFinally s' g => if Nat.eqb s' s then [g] else [] | _ => [] end.
Definition ffinals (s : nat) (t : list event) := flat_map (ffinal_of s) t.
Definition is_cancel_sig (g : signal) : bool := match g with SigCancel => true | _ => false end.
(** Calls of Finally for a completion or error, and for cancellations. *)
Definition ends (s : nat) (t : list event) : list signal := filter (fun g => negb (is_cancel_sig g)) (ffinals s t).
Definition cancel_ends (s : nat) (t : list event) : nat := List.length (filter is_cancel_sig (ffinals s t)).
Definition srccancel_of (s : nat) (ev : event) : list unit := match ev with VSrcCancel s' => if Nat.eqb s' s then [tt] else [] | _ => [] end.
Definition srccancels (s : nat) (t : list event) : nat := List.length (flat_map (srccancel_of s) t).
Definition demand_of (s : nat) (ev : event) : list Z := match ev with VDemand s' n => if Nat.eqb s' s then [n] else [] | _ => [] end.
Definition demands (s : nat) (t : list event) := flat_map (demand_of s) t.
Definition sumZ (l : list Z) : Z := fold_right Z.add 0%Z l.

(** Is a cancel action announced, and how many cancel actions should have run:
    one for each Cancel while one is announced. *)
Definition scan1 (s : nat) (p : bool * nat) (ev : event) : bool * nat :=
  match ev with
  | VSubscribed s' b => if Nat.eqb s' s then (b, snd p) else p
  | VCalled s' KCancel => if Nat.eqb s' s then (fst p, (snd p + if fst p then 1 else 0)%nat) else p
  | _ => p
  end.
Definition scan (s : nat) (t : list event) : bool * nat := fold_left (scan1 s) t (false, 0%nat).

(** Which calls take effect: all up to the first Complete, Error or Cancel. *)
Definition is_term (k : fcall V E) : bool := match k with KNext _ => false | _ => true end.
Fixpoint effective (ks : list (fcall V E)) : list (fcall V E) :=
  match ks with [] => [] | k :: ks' => if is_term k then [k] else k :: effective ks' end.
Definition terminated (ks : list (fcall V E)) : bool := existsb is_term ks.
Definition terminal (ks : list (fcall V E)) : option (fcall V E) := find is_term ks.
Definition is_cancel (k : fcall V E) : bool := match k with KCancel => true | _ => false end.
Definition cancels (ks : list (fcall V E)) : nat := List.length (filter is_cancel ks).
Definition end_signal (k : option (fcall V E)) : list signal :=
  match k with Some KComplete => [SigComplete] | Some (KError _) => [SigError] | _ => [] end.
Definition call_err (k : option (fcall V E)) : option E := match k with Some (KError e) => Some e | _ => None end.
Definition accepted (ks : list (fcall V E)) : Z := Z.of_nat (List.length (filter (fun k => negb (is_term k)) (effective ks))).
(** What the subscriber sees of an effective call, if it has the callback. *)
Definition visible {C} (h : fhandlers V E O C) (k : fcall V E) : list (fobs V E) :=
  match k with
  | KNext v => if fh_next h then [ONext v] else []
  | KComplete => if fh_complete h then [OComplete] else []
  | KError e => if fh_error h then [OError e] else []
  | KCancel => []
  end.

Definition quietf (s : nat) (ev : list event) : Prop := forall e, In e ev -> ev_sub e <> Some s.
Lemma flat_map_none {A} (f : event -> list A) s l :
  (forall e, ev_sub e <> Some s -> f e = []) -> quietf s l -> flat_map f l = [].
Proof.
  intros Hf H. induction l as [|e l IH]; [reflexivity|]. cbn. rewrite Hf, IH; [reflexivity| |].
  - intros x Hx. apply H. now right.
  - apply H. now left.
Qed.
Ltac by_sub := intros e He; destruct e as [? k| | | | | | | | | | | | |]; cbn in *; auto;
  match goal with |- context [Nat.eqb ?a ?b] => destruct (Nat.eqb a b) eqn:X; [apply Nat.eqb_eq in X; congruence|auto] end.
Lemma q_calls s l : quietf s l -> fcalls s l = []. Proof. apply flat_map_none. by_sub. Qed.
Lemma q_deliv s l : quietf s l -> delivered s l = []. Proof. apply flat_map_none. by_sub. Qed.
Lemma q_signals s l : quietf s l -> fsignals s l = []. Proof. apply flat_map_none. by_sub. Qed.
Lemma q_finals s l : quietf s l -> ffinals s l = []. Proof. apply flat_map_none. by_sub. Qed.
Lemma q_srccancels s l : quietf s l -> flat_map (srccancel_of s) l = []. Proof. apply flat_map_none. by_sub. Qed.
Lemma q_demands s l : quietf s l -> demands s l = []. Proof. apply flat_map_none. by_sub. Qed.
Lemma q_scan s l p : quietf s l -> fold_left (scan1 s) l p = p.
Proof.
  revert p. induction l as [|e l IH]; intros p H; [reflexivity|]. cbn.
  rewrite IH by (intros x Hx; apply H; now right).
  specialize (H e (or_introl eq_refl)). destruct e as [s' k| | | | | | |s' b| | | | | |]; cbn in *; auto.
  - destruct k; auto. destruct (Nat.eqb s' s) eqn:X; [apply Nat.eqb_eq in X; congruence|auto].
  - destruct (Nat.eqb s' s) eqn:X; [apply Nat.eqb_eq in X; congruence|auto].
Qed.
Lemma effective_open ks : terminated ks = false -> effective ks = ks.
Proof. induction ks as [|k ks IH]; cbn; auto. destruct (is_term k); cbn; [discriminate|]. intros. now rewrite IH. Qed.
Lemma effective_app ks l : effective (ks ++ l) = if terminated ks then effective ks else ks ++ effective l.
Proof. induction ks as [|k ks IH]; cbn; auto. destruct (is_term k); cbn; auto. rewrite IH. unfold terminated. now destruct (existsb is_term ks). Qed.
Lemma terminal_app ks l : terminal (ks ++ l) = match terminal ks with Some k => Some k | None => terminal l end.
Proof. induction ks as [|k ks IH]; cbn; auto. now destruct (is_term k). Qed.
Lemma terminated_app ks l : terminated (ks ++ l) = terminated ks || terminated l.
Proof. unfold terminated. apply existsb_app. Qed.
Lemma terminated_terminal ks : terminated ks = if terminal ks then true else false.
Proof. induction ks as [|k ks IH]; cbn; auto. now destruct (is_term k). Qed.
Lemma accepted_app ks l : accepted (ks ++ l) = if terminated ks then accepted ks else (accepted ks + accepted l)%Z.
Proof.
  unfold accepted. rewrite effective_app. destruct (terminated ks) eqn:T; [reflexivity|].
  rewrite (effective_open ks T), filter_app, app_length. lia.
Qed.
Lemma sumZ_app a b : sumZ (a ++ b) = (sumZ a + sumZ b)%Z.
Proof. unfold sumZ. induction a; cbn; lia. Qed.
End Spec.

Section Facts.
Context {V E O C St : Type}.
Notation event := (fevent V E O).
Notation conf := (fconf V E O C St).
Variable wasm : bool.

Definition fpend_of (s : nat) (i : fitem V E O C) : list signal :=
  match i with FFinal s' g => if Nat.eqb s' s then [g] else [] | _ => [] end.
Definition fpend (s : nat) (k : list (fitem V E O C)) := flat_map (fpend_of s) k.
Definition cpend_of (s : nat) (i : fitem V E O C) : list unit :=
  match i with FCancelFin s' => if Nat.eqb s' s then [tt] else [] | _ => [] end.
Definition cpend (s : nat) (k : list (fitem V E O C)) : nat := List.length (flat_map (cpend_of s) k).

Record sinv (s : nat) (t : list event) (pf : list signal) (pc : nat) (m : fsub V E O C) : Prop := {
  i_closed : fs_closed m = terminated (fcalls s t);
  i_err : fs_err m = call_err (terminal (fcalls s t));
  i_deliv : delivered s t = flat_map (visible (fs_h m)) (effective (fcalls s t));
  i_sig : fsignals s t ++ pf = end_signal (terminal (fcalls s t));
  i_ends : ends s t = if fh_finally (fs_h m) then fsignals s t else [];
  i_cends : (cancel_ends s t + if fh_finally (fs_h m) then pc else 0)%nat = if fh_finally (fs_h m) then cancels (fcalls s t) else 0%nat;
  i_pc : (pc <= cancels (fcalls s t))%nat;
  i_cur : fs_signal m = match first (fsignals s t) with Some g => g | None => SigComplete end;
  i_can : (if fs_cancel m then true else false) = fst (scan s t);
  i_src : srccancels s t = snd (scan s t);
  i_n : fs_n m = wrap_int wasm (sumZ (demands s t) - accepted (fcalls s t)) }.
Definition fnone (s : nat) (t : list event) (pf : list signal) (pc : nat) : Prop := quietf s t /\ pf = [] /\ pc = 0%nat.
Definition finv (c : conf) : Prop :=
  (forall s, let t := fc_trace c in let pf := fpend s (fc_stack c) in let pc := cpend s (fc_stack c) in
     match nth_error (fc_subs c) s with Some m => sinv s t pf pc m | None => fnone s t pf pc end) /\
  Forall (fun th => forall s, fpend s th = [] /\ cpend s th = 0%nat) (fc_threads c).

Lemma fpend_app s a b : fpend s (a ++ b) = fpend s a ++ fpend s b. Proof. apply flat_map_app. Qed.
Lemma cpend_app s a b : cpend s (a ++ b) = (cpend s a + cpend s b)%nat. Proof. unfold cpend. now rewrite flat_map_app, app_length. Qed.
Lemma fpend_facts s l : fpend s (facts l) = []. Proof. induction l; cbn; auto. Qed.
Lemma cpend_facts s l : cpend s (facts l) = 0%nat. Proof. induction l; cbn; auto. Qed.
Lemma fpend_fires s (l : list (N * (list event -> signal -> list (fact V E O C)))) g :
  fpend s (map (fun cb => FFire (fst cb) (snd cb) g) l) = [].
Proof. induction l; cbn; auto. Qed.
Lemma cpend_fires s (l : list (N * (list event -> signal -> list (fact V E O C)))) g :
  cpend s (map (fun cb => FFire (fst cb) (snd cb) g) l) = 0%nat.
Proof. induction l; cbn; auto. Qed.
Lemma fpend_cons s i k : fpend s (i :: k) = fpend_of s i ++ fpend s k. Proof. reflexivity. Qed.
Lemma cpend_cons s i k : cpend s (i :: k) = (List.length (cpend_of s i) + cpend s k)%nat. Proof. unfold cpend. cbn. now rewrite app_length. Qed.

Lemma sinv_quiet s t ev pf pc m : sinv s t pf pc m -> quietf s ev -> sinv s (t ++ ev) pf pc m.
Proof.
  intros I Q.
  assert (H1 : fcalls s (t ++ ev) = fcalls s t) by (unfold fcalls; rewrite flat_map_app; fold (fcalls s ev); rewrite q_calls by assumption; apply app_nil_r).
  assert (H2 : delivered s (t ++ ev) = delivered s t) by (unfold delivered; rewrite flat_map_app; fold (delivered s ev); rewrite q_deliv by assumption; apply app_nil_r).
  assert (H3 : fsignals s (t ++ ev) = fsignals s t) by (unfold fsignals; rewrite flat_map_app; fold (fsignals s ev); rewrite q_signals by assumption; apply app_nil_r).
  assert (H4 : ffinals s (t ++ ev) = ffinals s t) by (unfold ffinals; rewrite flat_map_app; fold (ffinals s ev); rewrite q_finals by assumption; apply app_nil_r).
  assert (H5 : srccancels s (t ++ ev) = srccancels s t) by (unfold srccancels; rewrite flat_map_app, (q_srccancels s ev) by assumption; now rewrite app_nil_r).
  assert (H6 : demands s (t ++ ev) = demands s t) by (unfold demands; rewrite flat_map_app; fold (demands s ev); rewrite q_demands by assumption; apply app_nil_r).
  assert (H7 : scan s (t ++ ev) = scan s t) by (unfold scan; rewrite fold_left_app; now apply q_scan).
  destruct I. constructor; unfold ends, cancel_ends in *; rewrite ?H1, ?H2, ?H3, ?H4, ?H5, ?H6, ?H7; assumption.
Qed.
Lemma fnone_quiet s t ev pf pc : fnone s t pf pc -> quietf s ev -> fnone s (t ++ ev) pf pc.
Proof. intros (A & B & D) Q. repeat split; auto. intros e He. apply in_app_iff in He as [He|He]; auto. Qed.
Lemma sinv_fresh s t h : quietf s t ->
  sinv s t [] 0 {| fs_closed := false; fs_n := 0; fs_err := None; fs_request := None; fs_cancel := None; fs_signal := SigComplete; fs_h := h |}.
Proof.
  intros Q. constructor; unfold ends, cancel_ends, srccancels, scan;
    rewrite ?q_calls, ?q_deliv, ?q_signals, ?q_finals, ?q_srccancels, ?q_demands, ?q_scan by assumption; try reflexivity.
  - cbn [fs_h]. now destruct (fh_finally h).
  - cbn. unfold wrap_int. now destruct wasm.
Qed.

Variable source : nat -> list (fact V E O C).
Variable code : C -> list event -> St -> option (St * list (fact V E O C)).

(** A step about subscription [s] only. *)
Lemma finv_sub (c c' : conf) s m m' ev new :
  finv c -> nth_error (fc_subs c) s = Some m -> fc_subs c' = mset (fc_subs c) s m' -> fc_trace c' = fc_trace c ++ ev ->
  fc_threads c' = fc_threads c ++ new -> Forall (fun th => forall s, fpend s th = [] /\ cpend s th = 0%nat) new ->
  (forall e, In e ev -> ev_sub e = Some s) ->
  (forall j, j <> s -> fpend j (fc_stack c') = fpend j (fc_stack c) /\ cpend j (fc_stack c') = cpend j (fc_stack c)) ->
  (sinv s (fc_trace c) (fpend s (fc_stack c)) (cpend s (fc_stack c)) m -> sinv s (fc_trace c ++ ev) (fpend s (fc_stack c')) (cpend s (fc_stack c')) m') ->
  finv c'.
Proof.
  intros [I Th] Hm Hs Ht Hth Hnew Hev Hk Hmain. split.
  2:{ rewrite Hth. apply Forall_app. auto. }
  intros j. cbv zeta. rewrite Hs, Ht, nth_mset by (eapply nth_some_lt; eauto).
  destruct (Nat.eqb s j) eqn:Esj.
  - apply Nat.eqb_eq in Esj as <-. specialize (I s). cbv zeta in I. rewrite Hm in I. auto.
  - apply Nat.eqb_neq in Esj. specialize (I j). cbv zeta in I. destruct (Hk j ltac:(congruence)) as [-> ->].
    assert (Q : quietf j ev) by (intros e He; rewrite (Hev e He); congruence).
    destruct (nth_error (fc_subs c) j); [now apply sinv_quiet|now apply fnone_quiet].
Qed.
(** A step about no subscription's state. *)
Lemma finv_quiet (c c' : conf) ev :
  finv c -> fc_subs c' = fc_subs c -> fc_trace c' = fc_trace c ++ ev ->
  Forall (fun th => forall s, fpend s th = [] /\ cpend s th = 0%nat) (fc_threads c') ->
  (forall s, quietf s ev) ->
  (forall j, fpend j (fc_stack c') = fpend j (fc_stack c) /\ cpend j (fc_stack c') = cpend j (fc_stack c)) ->
  finv c'.
Proof.
  intros [I Th] Hs Ht Hth Q Hk. split; [|exact Hth]. intros j. cbv zeta. rewrite Hs, Ht. destruct (Hk j) as [-> ->].
  specialize (I j). cbv zeta in I. destruct (nth_error (fc_subs c) j); [now apply sinv_quiet|now apply fnone_quiet].
Qed.
Lemma mset_same {A} (l : list A) i x : nth_error l i = Some x -> mset l i x = l.
Proof. unfold mset. revert i. induction l; intros [|i] H; try discriminate; cbn in *; [congruence|]. f_equal. now apply IHl. Qed.

Lemma wrap_wrap a b : wrap_int wasm (wrap_int wasm a + b) = wrap_int wasm (a + b).
Proof.
  unfold wrap_int. f_equal. set (m := if wasm then _ else _). assert (Hm : (0 < 2 * m)%Z) by (unfold m; destruct wasm; lia).
  replace ((a + m) mod (2 * m) - m + b + m)%Z with ((a + m) mod (2 * m) + b)%Z by lia.
  rewrite Zplus_mod_idemp_l. f_equal. lia.
Qed.
Ltac one := let e := fresh in let He := fresh in intros e He; repeat (destruct He as [<-|He]; [reflexivity|]); destruct He.
Ltac none := let s' := fresh in let e := fresh in let He := fresh in intros s' e He; repeat (destruct He as [<-|He]; [discriminate|]); destruct He.
Ltac sprj := unfold fcalls, delivered, fsignals, ends, cancel_ends, ffinals, srccancels, demands, scan in *;
  rewrite ?flat_map_app, ?fold_left_app; cbn [flat_map fold_left scan1 fcall_of deliv_of fsignal_of ffinal_of srccancel_of demand_of fst snd app];
  rewrite ?Nat.eqb_refl; cbn [app]; rewrite ?app_nil_r.


Ltac grow T T' :=
  sprj; rewrite ?terminated_app, ?terminal_app, ?effective_app, ?accepted_app; unfold fcalls in *; rewrite ?T, ?T' in *;
  cbn [terminated existsb terminal find is_term effective app orb end_signal call_err set_n set_closed fs_closed fs_err fs_n fs_cancel fs_signal fs_h fs_request].
(** The effect of a call on an open subscription. *)
Lemma sinv_next s t pf pc m v :
  sinv s t pf pc m -> fs_closed m = false ->
  sinv s (t ++ (VCalled s (KNext v) :: if fh_next (fs_h m) then [VOnNext s v] else [])) pf pc (set_n wasm m (fs_n m - 1)).
Proof.
  intros [] Cl. assert (T : terminated (fcalls s t) = false) by congruence.
  assert (T' : terminal (fcalls s t) = None).
  { rewrite terminated_terminal in T. now destruct (terminal (fcalls s t)). }
  constructor; destruct (fh_next (fs_h m)) eqn:Hn; grow T T'; auto.
  1,2: rewrite i_deliv0, effective_open by assumption; rewrite flat_map_app; cbn [flat_map visible]; rewrite Hn, ?app_nil_r; reflexivity.
  1,2,3,4: unfold cancels in *; rewrite filter_app; cbn [filter is_cancel]; now rewrite app_nil_r.
  1,2: rewrite i_n0, <- Z.add_opp_r, wrap_wrap; f_equal; change (accepted [KNext v]) with 1%Z; lia.
Qed.
Lemma sinv_end s t pf pc m k :
  sinv s t pf pc m -> fs_closed m = false -> (k = KComplete \/ exists e, k = KError e) ->
  sinv s (t ++ (VCalled s k :: match k with
                               | KComplete => if fh_complete (fs_h m) then [VOnComplete s] else []
                               | KError e => if fh_error (fs_h m) then [VOnError s e] else []
                               | _ => [] end))
    (end_signal (Some k)) pc (set_closed m (match k with KError e => Some e | _ => fs_err m end)).
Proof.
  intros [] Cl Hk. assert (T : terminated (fcalls s t) = false) by congruence.
  assert (T' : terminal (fcalls s t) = None).
  { rewrite terminated_terminal in T. now destruct (terminal (fcalls s t)). }
  rewrite T' in i_sig0, i_err0. cbn [end_signal] in i_sig0. apply app_eq_nil in i_sig0 as [Sg ->]. unfold fsignals in Sg.
  destruct Hk as [-> |[e ->]].
  - constructor; destruct (fh_complete (fs_h m)) eqn:Hn; grow T T'; auto.
    1,2: rewrite i_deliv0, effective_open by assumption; rewrite flat_map_app; cbn [flat_map visible]; rewrite Hn, ?app_nil_r; reflexivity.
    1,2: rewrite Sg; reflexivity.
    1,2,3,4: unfold cancels in *; rewrite filter_app; cbn [filter is_cancel]; now rewrite app_nil_r.
    1,2: rewrite i_n0; f_equal; change (accepted (@KComplete V E :: [])) with 0%Z; lia.
  - constructor; destruct (fh_error (fs_h m)) eqn:Hn; grow T T'; auto.
    1,2: rewrite i_deliv0, effective_open by assumption; rewrite flat_map_app; cbn [flat_map visible]; rewrite Hn, ?app_nil_r; reflexivity.
    1,2: rewrite Sg; reflexivity.
    1,2,3,4: unfold cancels in *; rewrite filter_app; cbn [filter is_cancel]; now rewrite app_nil_r.
    1,2: rewrite i_n0; f_equal; change (accepted (@KError V E e :: [])) with 0%Z; lia.
Qed.
Lemma sinv_late s t pf pc m k :
  sinv s t pf pc m -> fs_closed m = true -> is_cancel k = false -> sinv s (t ++ [VCalled s k]) pf pc m.
Proof.
  intros [] Cl Hk. assert (T : terminated (fcalls s t) = true) by congruence.
  assert (T' : exists k0, terminal (fcalls s t) = Some k0).
  { rewrite terminated_terminal in T. destruct (terminal (fcalls s t)); [eauto|discriminate]. }
  destruct T' as [k0 T'].
  constructor; grow T T'; auto.
  1,2: unfold cancels in *; rewrite filter_app; cbn [filter]; rewrite Hk; now rewrite app_nil_r.
  - rewrite i_can0. now destruct k.
  - rewrite i_src0. now destruct k.
Qed.
Lemma sinv_cancel s t pf pc m :
  sinv s t pf pc m ->
  sinv s (t ++ (VCalled s KCancel :: if fs_cancel m then [VSrcCancel s] else [])) pf (S pc) (set_closed m (fs_err m)).
Proof.
  intros []. destruct (terminated (fcalls s t)) eqn:T.
  - assert (T' : exists k0, terminal (fcalls s t) = Some k0).
    { rewrite terminated_terminal in T. destruct (terminal (fcalls s t)); [eauto|discriminate]. }
    destruct T' as [k0 T'].
    constructor; destruct (fs_cancel m) eqn:Hc; grow T T'; rewrite <- ?i_can0, ?app_length; cbn [fst snd List.length]; auto.
    1,2: unfold cancels in *; rewrite filter_app, app_length; cbn [filter is_cancel List.length]; destruct (fh_finally (fs_h m)); lia.
    1,2: unfold cancels in *; rewrite filter_app, app_length; cbn [filter is_cancel List.length]; lia.
    all: try (now rewrite Hc); try (rewrite i_src0; lia).
  - assert (T' : terminal (fcalls s t) = None).
    { rewrite terminated_terminal in T. now destruct (terminal (fcalls s t)). }
    constructor; destruct (fs_cancel m) eqn:Hc; grow T T'; rewrite <- ?i_can0, ?app_length; cbn [fst snd List.length]; auto.
    1,2: rewrite i_deliv0, effective_open by assumption; rewrite flat_map_app; cbn [flat_map visible]; rewrite ?app_nil_r; reflexivity.
    1,2: unfold cancels in *; rewrite filter_app, app_length; cbn [filter is_cancel List.length]; destruct (fh_finally (fs_h m)); lia.
    1,2: unfold cancels in *; rewrite filter_app, app_length; cbn [filter is_cancel List.length]; lia.
    all: try (now rewrite Hc); try (rewrite i_src0; lia).
    1,2: rewrite i_n0; f_equal; change (accepted (@KCancel V E :: [])) with 0%Z; lia.
Qed.
Lemma sinv_final s t g pf pc m :
  sinv s t (g :: pf) pc m ->
  sinv s (t ++ (VSignal s g :: if fh_finally (fs_h m) then [VFinally s g] else [])) pf pc
    {| fs_closed := fs_closed m; fs_n := fs_n m; fs_err := fs_err m; fs_request := fs_request m; fs_cancel := fs_cancel m; fs_signal := g; fs_h := fs_h m |}.
Proof.
  intros [].
  assert (X : fsignals s t = [] /\ pf = [] /\ end_signal (terminal (fcalls s t)) = [g] /\ is_cancel_sig g = false).
  { destruct (terminal (fcalls s t)) as [[]|]; cbn in *; destruct (fsignals s t) as [|? [|? ?]]; cbn in i_sig0; try discriminate; inversion i_sig0; auto. }
  destruct X as (X1 & -> & X3 & X4). unfold fsignals in X1. 
  constructor; destruct (fh_finally (fs_h m)) eqn:Hn; sprj;
    cbn [fs_closed fs_err fs_n fs_cancel fs_signal fs_h fs_request]; rewrite ?X1, ?X3, ?Hn, ?filter_app in *; cbn [filter]; rewrite ?X4; cbn [negb first app]; rewrite ?app_nil_r; auto.
  rewrite i_ends0. reflexivity.
Qed.
Lemma sinv_cancelfin s t pf pc m :
  sinv s t pf (S pc) m -> sinv s (t ++ (if fh_finally (fs_h m) then [VFinally s SigCancel] else [])) pf pc m.
Proof.
  intros []. constructor; destruct (fh_finally (fs_h m)) eqn:Hn; sprj; rewrite ?filter_app; cbn [filter is_cancel_sig negb]; rewrite ?app_nil_r; auto; try lia.
  rewrite app_length. cbn [List.length]. lia.
Qed.
Lemma sinv_subscribed s t pf pc m rq (cn : option (list event -> list (fact V E O C))) :
  sinv s t pf pc m ->
  sinv s (t ++ [VSubscribed s (if cn then true else false)]) pf pc
    {| fs_closed := fs_closed m; fs_n := fs_n m; fs_err := fs_err m; fs_request := rq; fs_cancel := cn; fs_signal := fs_signal m; fs_h := fs_h m |}.
Proof. intros []. constructor; sprj; auto. Qed.
Lemma sinv_demand s t pf pc m n :
  sinv s t pf pc m -> sinv s (t ++ [VDemand s n]) pf pc (set_n wasm m (fs_n m + n)).
Proof.
  intros []. constructor; sprj; auto. cbn [set_n fs_n]. rewrite i_n0, wrap_wrap. f_equal. rewrite sumZ_app. cbn. lia.
Qed.
Lemma sinv_misc s t pf pc m ev :
  sinv s t pf pc m -> (ev = [VOnRequest s] \/ exists n, ev = [VSrcRequest s n]) -> sinv s (t ++ ev) pf pc m.
Proof. intros [] [-> |[n ->]]; constructor; sprj; auto. Qed.

Ltac stk Hk := rewrite ?Hk, ?fpend_app, ?fpend_facts, ?cpend_app, ?cpend_facts, ?fpend_cons, ?cpend_cons;
  cbn [fpend_of cpend_of app List.length Nat.add].
Ltac others Hk := let j := fresh "j" in let Hj := fresh "Hj" in intros j Hj; cbn [femit fc_stack]; stk Hk;
  try (replace (Nat.eqb _ j) with false by (symmetry; apply Nat.eqb_neq; congruence)); cbn [app List.length Nat.add]; split; reflexivity.
Ltac mine Hk := cbn [femit fc_stack]; stk Hk; rewrite ?Nat.eqb_refl; cbn [app List.length Nat.add].

Lemma finv_call c s k rest : finv c -> fc_stack c = FAct (FCall s k) :: rest -> finv (do_fcall wasm s k rest c).
Proof.
  intros I Hk. unfold do_fcall. destruct (nth_error (fc_subs c) s) as [m|] eqn:Em.
  2:{ eapply finv_quiet with (ev := []); eauto; try reflexivity; [cbn; rewrite app_nil_r; apply I|none|]. intros. cbn [femit fc_stack]. stk Hk. auto. }
  assert (CL : fs_closed m = true -> is_cancel k = false -> finv (femit c (fc_subs c) [VCalled s k] rest [])).
  { intros Cl Hc. eapply finv_sub with (s := s) (m := m) (m' := m) (ev := [VCalled s k]) (new := []); eauto; try reflexivity.
    - cbn. symmetry. now apply mset_same.
    - one.
    - others Hk.
    - mine Hk. intros. now apply sinv_late. }
  destruct k as [v| |e|].
  - destruct (fs_closed m) eqn:Cl; [now apply CL|].
    destruct (fh_next (fs_h m)) as [f|] eqn:Hf.
    + eapply finv_sub with (s := s) (ev := [VCalled s (KNext v); VOnNext s v]) (new := []); eauto; try reflexivity; [one|others Hk|mine Hk].
      intros Is. apply (sinv_next s _ _ _ m v) in Is; [|exact Cl]. now rewrite Hf in Is.
    + eapply finv_sub with (s := s) (ev := [VCalled s (KNext v)]) (new := []); eauto; try reflexivity; [one|others Hk|mine Hk].
      intros Is. apply (sinv_next s _ _ _ m v) in Is; [|exact Cl]. now rewrite Hf in Is.
  - destruct (fs_closed m) eqn:Cl; [now apply CL|].
    assert (P0 : sinv s (fc_trace c) (fpend s (fc_stack c)) (cpend s (fc_stack c)) m -> fpend s rest = []).
    { intros []. assert (T : terminated (fcalls s (fc_trace c)) = false) by congruence. rewrite terminated_terminal in T.
      destruct (terminal (fcalls s (fc_trace c))); [discriminate|]. apply app_eq_nil in i_sig0 as [_ X]. rewrite Hk in X. exact X. }
    destruct (fh_complete (fs_h m)) as [f|] eqn:Hf.
    + eapply finv_sub with (s := s) (ev := [VCalled s KComplete; VOnComplete s]) (new := []); eauto; try reflexivity; [one|others Hk|mine Hk].
      intros Is. rewrite (P0 ltac:(now rewrite Hk)). apply (sinv_end s _ _ _ m KComplete) in Is; auto. now rewrite Hf in Is.
    + eapply finv_sub with (s := s) (ev := [VCalled s KComplete]) (new := []); eauto; try reflexivity; [one|others Hk|mine Hk].
      intros Is. rewrite (P0 ltac:(now rewrite Hk)). apply (sinv_end s _ _ _ m KComplete) in Is; auto. now rewrite Hf in Is.
  - destruct (fs_closed m) eqn:Cl; [now apply CL|].
    assert (P0 : sinv s (fc_trace c) (fpend s (fc_stack c)) (cpend s (fc_stack c)) m -> fpend s rest = []).
    { intros []. assert (T : terminated (fcalls s (fc_trace c)) = false) by congruence. rewrite terminated_terminal in T.
      destruct (terminal (fcalls s (fc_trace c))); [discriminate|]. apply app_eq_nil in i_sig0 as [_ X]. rewrite Hk in X. exact X. }
    destruct (fh_error (fs_h m)) as [f|] eqn:Hf.
    + eapply finv_sub with (s := s) (ev := [VCalled s (KError e); VOnError s e]) (new := []); eauto; try reflexivity; [one|others Hk|mine Hk].
      intros Is. rewrite (P0 ltac:(now rewrite Hk)). apply (sinv_end s _ _ _ m (KError e)) in Is; eauto. now rewrite Hf in Is.
    + eapply finv_sub with (s := s) (ev := [VCalled s (KError e)]) (new := []); eauto; try reflexivity; [one|others Hk|mine Hk].
      intros Is. rewrite (P0 ltac:(now rewrite Hk)). apply (sinv_end s _ _ _ m (KError e)) in Is; eauto. now rewrite Hf in Is.
  - destruct (fs_cancel m) as [f|] eqn:Hf.
    + eapply finv_sub with (s := s) (ev := [VCalled s KCancel; VSrcCancel s]) (new := []); eauto; try reflexivity; [one|others Hk|mine Hk].
      intros Is. apply sinv_cancel in Is. now rewrite Hf in Is.
    + eapply finv_sub with (s := s) (ev := [VCalled s KCancel]) (new := []); eauto; try reflexivity; [one|others Hk|mine Hk].
      intros Is. apply sinv_cancel in Is. now rewrite Hf in Is.
Qed.
Lemma fnone_absurd c s : finv c -> nth_error (fc_subs c) s = None -> fpend s (fc_stack c) = [] /\ cpend s (fc_stack c) = 0%nat.
Proof. intros [I _] H. specialize (I s). cbv zeta in I. rewrite H in I. apply I. Qed.
Ltac skip Hk I := eapply finv_quiet with (ev := []); eauto; try reflexivity; [cbn; rewrite ?app_nil_r; auto; apply I..|none|intros; cbn [femit fc_stack]; stk Hk; auto].

Lemma finv_step c i : finv c -> finv (fstep wasm source code c i).
Proof.
  intros I. unfold fstep. destruct (fc_panicked c); [exact I|].
  destruct (fc_stack c) as [|it rest] eqn:Hk.
  - destruct (nth_error (fc_threads c) i) as [th|] eqn:Et; [|exact I]. destruct I as [I Th].
    assert (X := proj1 (Forall_forall _ _) Th th (nth_error_In _ _ Et)). cbn beta in X.
    eapply finv_quiet with (ev := []); [split; eauto|reflexivity|cbn; now rewrite app_nil_r| |none|].
    + cbn [fc_threads]. apply Forall_forall. intros x Hx. apply (proj1 (Forall_forall _ _) Th).
      apply in_app_iff in Hx as [Hx|Hx]; [eapply in_firstn|eapply in_skipn]; eauto.
    + intros j. cbn [fc_stack]. rewrite Hk. apply X.
  - destruct it as [[s k|s rq cn|s n|h|id fn|o|k]|s|s|s g|s g|id fn g|s n|s]; cbn [do_fitem].
    + now apply finv_call.
    + unfold do_onsubscribe. destruct (nth_error (fc_subs c) s) as [m|] eqn:Em; [|skip Hk I].
      destruct (fs_closed m) eqn:Cl; [skip Hk I|].
      destruct (fs_n m >? 0)%Z; [destruct wasm eqn:Ew|].
      * eapply finv_sub with (s := s) (ev := [VSubscribed s (if cn then true else false)]) (new := []); eauto; try reflexivity; [one|others Hk|mine Hk].
        intros Is. apply (sinv_subscribed s _ _ _ m rq cn) in Is. now rewrite Cl in Is.
      * eapply finv_sub with (s := s) (ev := [VSubscribed s (if cn then true else false)]) (new := [[FReq s (fs_n m)]]); eauto; try reflexivity; [one|others Hk|mine Hk].
        intros Is. apply (sinv_subscribed s _ _ _ m rq cn) in Is. now rewrite Cl in Is.
      * eapply finv_sub with (s := s) (ev := [VSubscribed s (if cn then true else false)]) (new := []); eauto; try reflexivity; [one|others Hk|mine Hk].
        intros Is. apply (sinv_subscribed s _ _ _ m rq cn) in Is. now rewrite Cl in Is.
    + unfold do_request. destruct (nth_error (fc_subs c) s) as [m|] eqn:Em; [|skip Hk I].
      destruct (fs_request m) as [f|]; [destruct wasm eqn:Ew|].
      * eapply finv_sub with (s := s) (ev := [VDemand s n]) (new := []); eauto; try reflexivity; [one|others Hk|mine Hk].
        intros Is. rewrite <- Ew in *. now apply sinv_demand.
      * eapply finv_sub with (s := s) (ev := [VDemand s n]) (new := [[FReq s n]]); eauto; try reflexivity; [one|others Hk|mine Hk].
        intros Is. rewrite <- Ew in *. now apply sinv_demand.
      * eapply finv_sub with (s := s) (ev := [VDemand s n]) (new := []); eauto; try reflexivity; [one|others Hk|mine Hk].
        intros Is. now apply sinv_demand.
    + destruct I as [I Th]. split; [|exact Th]. intros s. cbv zeta. cbn [fc_subs fc_trace fc_stack]. specialize (I s). cbv zeta in I.
      rewrite Hk in I. stk Hk. destruct (Nat.lt_ge_cases s (List.length (fc_subs c))).
      * rewrite nth_error_app1 by assumption. destruct (nth_error (fc_subs c) s) eqn:En; [|apply nth_error_None in En; lia]. exact I.
      * rewrite (proj2 (nth_error_None _ _)) in I by assumption. destruct I as (Q & P1 & P2).
        change (fpend s rest = []) in P1. change (cpend s rest = 0%nat) in P2. rewrite P1, P2.
        destruct (Nat.eq_dec s (List.length (fc_subs c))) as [-> |Hne].
        -- rewrite nth_error_app2, Nat.sub_diag by lia. cbn [nth_error]. now apply sinv_fresh.
        -- rewrite (proj2 (nth_error_None _ _)) by (rewrite app_length; cbn; lia). repeat split; auto.
    + unfold do_fnotify. destruct (match fc_cur c with Some _ => _ | None => _ end) as [m|] eqn:Em; [destruct (fs_closed m)|];
        (eapply finv_quiet with (ev := [VRegistered id]); eauto; try reflexivity; [cbn; rewrite ?app_nil_r; apply I|none|intros; cbn [femit fc_stack]; stk Hk; auto]).
    + eapply finv_quiet with (ev := [VObs o]); eauto; try reflexivity; [cbn; rewrite ?app_nil_r; apply I|none|intros; cbn [femit fc_stack]; stk Hk; auto].
    + destruct (code k (fc_trace c) (fc_store c)) as [[st l]|].
      * eapply finv_quiet with (ev := []); eauto; try reflexivity; [cbn; now rewrite app_nil_r|apply I|none|intros; cbn [femit fc_stack]; stk Hk; auto].
      * eapply finv_quiet with (ev := []); eauto; try reflexivity; [cbn; now rewrite app_nil_r|apply I|none].
    + destruct (nth_error (fc_subs c) s) as [m|] eqn:Em; [|skip Hk I].
      eapply finv_quiet with (ev := []); eauto; try reflexivity; [cbn; rewrite app_nil_r; apply I|none|].
      intros. cbn [femit fc_stack]. destruct (fs_n m =? 0)%Z; stk Hk; auto.
    + unfold do_handle. destruct (nth_error (fc_subs c) s) as [m|] eqn:Em; [|skip Hk I].
      destruct (fh_norequest (fs_h m)); [skip Hk I|]. destruct (fh_request (fs_h m)) as [f|]; [|skip Hk I].
      eapply finv_sub with (s := s) (m := m) (m' := m) (ev := [VOnRequest s]) (new := []); eauto; try reflexivity; [cbn; symmetry; now apply mset_same|one|others Hk|mine Hk].
      intros Is. apply sinv_misc; auto.
    + unfold do_ffinal. destruct (nth_error (fc_subs c) s) as [m|] eqn:Em.
      2:{ destruct (fnone_absurd c s I Em) as [P _]. rewrite Hk in P. cbn in P. rewrite Nat.eqb_refl in P. discriminate. }
      destruct (fh_finally (fs_h m)) as [f|] eqn:Hf.
      * eapply finv_sub with (s := s) (m := m) (ev := [VSignal s g; VFinally s g]) (new := []); eauto; try reflexivity; [one|others Hk|mine Hk].
        intros Is. apply sinv_final in Is. now rewrite Hf in Is.
      * eapply finv_sub with (s := s) (m := m) (ev := [VSignal s g]) (new := []); eauto; try reflexivity; [one|others Hk|mine Hk].
        intros Is. apply sinv_final in Is. now rewrite Hf in Is.
    + eapply finv_quiet with (ev := []); eauto; try reflexivity; [cbn; rewrite app_nil_r; apply I|none|].
      intros. cbn [femit fc_stack]. rewrite fpend_app, fpend_fires, cpend_app, cpend_fires. stk Hk. auto.
    + eapply finv_quiet with (ev := [VFired id g]); eauto; try reflexivity; [cbn; rewrite app_nil_r; apply I|none|].
      intros. cbn [femit fc_stack]. stk Hk. auto.
    + unfold do_req. destruct (nth_error (fc_subs c) s) as [m|] eqn:Em; [|skip Hk I].
      destruct (fs_request m) as [f|].
      * eapply finv_sub with (s := s) (m := m) (m' := m) (ev := [VSrcRequest s n]) (new := []); eauto; try reflexivity; [cbn; symmetry; now apply mset_same|one|others Hk|mine Hk].
        intros Is. apply sinv_misc; eauto.
      * eapply finv_quiet with (ev := []); eauto; try reflexivity; [cbn; now rewrite app_nil_r|apply I|none].
    + unfold do_cancelfin. destruct (nth_error (fc_subs c) s) as [m|] eqn:Em.
      2:{ destruct (fnone_absurd c s I Em) as [_ P]. rewrite Hk in P. cbn in P. rewrite Nat.eqb_refl in P. discriminate. }
      destruct (fh_finally (fs_h m)) as [f|] eqn:Hf.
      * eapply finv_sub with (s := s) (m := m) (m' := m) (ev := [VFinally s SigCancel]) (new := []); eauto; try reflexivity; [cbn; symmetry; now apply mset_same|one|others Hk|mine Hk].
        intros Is. apply sinv_cancelfin in Is. now rewrite Hf in Is.
      * eapply finv_sub with (s := s) (m := m) (m' := m) (ev := []) (new := []); eauto; try reflexivity; [cbn; symmetry; now apply mset_same|one|others Hk|mine Hk].
        intros Is. apply sinv_cancelfin in Is. now rewrite Hf in Is.
Qed.
Lemma finv_run sched c : finv c -> finv (frun wasm source code sched c).
Proof. revert c. induction sched; intros c I; [exact I|]. cbn. apply IHsched. now apply finv_step. Qed.
Lemma finv_init st threads : finv (finit st threads).
Proof.
  split.
  - intros s. cbn. rewrite nth_nil. repeat split. intros e [].
  - cbn. apply Forall_forall. intros th Hth. apply in_map_iff in Hth as (l & <- & _). intros s. now rewrite fpend_facts, cpend_facts.
Qed.
End Facts.
