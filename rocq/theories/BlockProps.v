(** C86: the blocking calls of the host.  [shown] reads off a trace the
    callbacks made to a subscription; [terminal], [cancels], [effective] of
    FluxFacts.v say which calls of the source's sink count. *)
From Verif Require Import Base MonoModel MonoFacts MonoProps FluxModel FluxFacts FluxProps BlockModel.
Local Ltac Zify.zify_post_hook ::= Z.div_mod_to_equations.

(** ** What the callbacks do to a blocked caller *)
Definition shown_of {V E O} (s : nat) (ev : fevent V E O) : list (fobs V E) := deliv_of s ev ++ map OFinally (ffinal_of s ev).
Definition shown {V E O} (s : nat) (t : list (fevent V E O)) : list (fobs V E) := flat_map (shown_of s) t.
Definition finals_in {D E} (l : list (fobs D E)) : nat := List.length (filter is_final l).

Lemma state_app {D E} (a b : list (fobs D E)) : block_state (a ++ b) = fold_left block_see b (block_state a).
Proof. apply fold_left_app. Qed.
Lemma shown_app {V E O} s (a b : list (fevent V E O)) : shown s (a ++ b) = shown s a ++ shown s b. Proof. apply flat_map_app. Qed.
Lemma see_quiet {D E} (l : list (fobs D E)) st : finals_in l = 0%nat -> snd (fold_left block_see l st) = snd st.
Proof. revert st. induction l as [|o l IH]; intros st H; [reflexivity|]. destruct o; cbn in *; try discriminate; now rewrite IH. Qed.
Lemma see_crashed {D E} (l : list (fobs D E)) st : snd st = Crashed -> snd (fold_left block_see l st) = Crashed.
Proof. revert st. induction l as [|o l IH]; intros st H; [exact H|]. apply IH. destruct o; cbn; auto. now rewrite H. Qed.
Lemma result_count {D E} (l : list (fobs D E)) :
  match finals_in l with
  | 0%nat => block_result l = Waiting
  | 1%nat => exists e, block_result l = Returned e
  | _ => block_result l = Crashed
  end.
Proof.
  unfold block_result, block_state, finals_in. induction l as [|o l IH] using rev_ind; [reflexivity|].
  rewrite filter_app, app_length, fold_left_app. cbn [fold_left]. destruct (fold_left block_see l (None, Waiting)) as [er r]. cbn in IH.
  destruct o; cbn [filter is_final List.length]; rewrite ?Nat.add_0_r; try exact IH.
  rewrite Nat.add_1_r. destruct (List.length (filter is_final l)) as [|[|n]]; cbn; [subst r; eauto|destruct IH as [x ->]; reflexivity|now rewrite IH].
Qed.
Lemma shown_finals {V E O} s (t : list (fevent V E O)) : finals_in (shown s t) = List.length (ffinals s t).
Proof.
  unfold finals_in, shown, ffinals. induction t as [|ev t IH]; [reflexivity|]. cbn [flat_map]. rewrite filter_app, !app_length, IH. f_equal.
  unfold shown_of. destruct ev; cbn; try destruct (Nat.eqb _ _); reflexivity.
Qed.
Definition errs_of {D E} (l : list (fobs D E)) : list E := flat_map (fun o => match o with OError e => [e] | _ => [] end) l.
Lemma fst_state {D E} (l : list (fobs D E)) st : fst (fold_left block_see l st) = match rev (errs_of l) with e :: _ => Some e | [] => fst st end.
Proof.
  induction l as [|o l IH] using rev_ind; [reflexivity|]. rewrite fold_left_app. unfold errs_of in *. rewrite flat_map_app, rev_app_distr.
  destruct o; cbn; rewrite ?IH; reflexivity.
Qed.
Lemma shown_errs {V E O} s (t : list (fevent V E O)) : errs_of (shown s t) = errs_of (delivered s t).
Proof.
  unfold errs_of, shown, delivered. induction t as [|ev t IH]; [reflexivity|]. cbn [flat_map]. rewrite !flat_map_app, IH. f_equal.
  unfold shown_of. destruct ev; cbn; try destruct (Nat.eqb _ _); reflexivity.
Qed.
Lemma effective_errs {V E O C} (h : fhandlers V E O C) ks : fh_error h <> None ->
  errs_of (flat_map (visible h) (effective ks)) = match call_err (terminal ks) with Some e => [e] | None => [] end.
Proof.
  intros He. induction ks as [|k ks IH]; [reflexivity|]. destruct k; cbn.
  - destruct (fh_next h); cbn; exact IH.
  - destruct (fh_complete h); reflexivity.
  - destruct (fh_error h); [reflexivity|congruence].
  - reflexivity.
Qed.

(** *** A step calls Finally of a subscription at most once, and then nothing else of it *)
Lemma step_final V E O C St wasm source code (c : fconf V E O C St) i s : exists ev, fc_trace (fstep wasm source code c i) = fc_trace c ++ ev /\
  (ffinals s ev = [] \/ exists g, shown s ev = [OFinally g] /\ fcalls s ev = []).
Proof.
  assert (Z : exists ev, fc_trace c = fc_trace c ++ ev /\ (ffinals s ev = [] \/ exists g, shown s ev = [OFinally g] /\ fcalls s ev = [])) by (exists []; rewrite app_nil_r; auto).
  assert (F : forall j g (sig : bool), let ev := (if sig then [VSignal j g] else []) ++ [VFinally j g] in
            ffinals s (ev : list (fevent V E O)) = [] \/ exists g, shown s (ev : list (fevent V E O)) = [OFinally g] /\ fcalls s (ev : list (fevent V E O)) = []).
  { intros j g sig ev. unfold ev. destruct sig; unfold ffinals, shown, shown_of, fcalls; cbn; destruct (Nat.eqb j s); cbn; eauto. }
  unfold fstep. destruct (fc_panicked c); [exact Z|]. destruct (fc_stack c) as [|it rest].
  { destruct (nth_error (fc_threads c) i); exact Z. }
  destruct it as [[j k|j rq cn|j n|h|id fn|o|k]|j|j|j g|j g|id fn g|j n|j]; cbn [do_fitem].
  - unfold do_fcall. destruct (nth_error (fc_subs c) j) as [m0|] eqn:Ej; [|cbn; eauto].
    destruct k; [destruct (fs_closed m0); [cbn; eauto|]; destruct (fh_next (fs_h m0))|destruct (fs_closed m0); [cbn; eauto|]; destruct (fh_complete (fs_h m0))
                |destruct (fs_closed m0); [cbn; eauto|]; destruct (fh_error (fs_h m0))|destruct (fs_cancel m0)]; cbn; eauto.
  - unfold do_onsubscribe. destruct (nth_error (fc_subs c) j) as [m0|] eqn:Ej; [|cbn; eauto]. destruct (fs_closed m0); [cbn; eauto|].
    destruct (fs_n m0 >? 0)%Z; [destruct wasm|]; cbn; eauto.
  - unfold do_request. destruct (nth_error (fc_subs c) j) as [m0|] eqn:Ej; [|cbn; eauto].
    destruct (fs_request m0); [destruct wasm|]; cbn; eauto.
  - exact Z.
  - unfold do_fnotify. destruct (match fc_cur c with Some _ => _ | None => _ end) as [m0|]; [destruct (fs_closed m0)|]; cbn; eauto.
  - cbn; eauto.
  - destruct (code k (fc_trace c) (fc_store c)) as [[? ?]|]; exact Z.
  - destruct (nth_error (fc_subs c) j); cbn; eauto.
  - unfold do_handle. destruct (nth_error (fc_subs c) j) as [m0|]; [|cbn; eauto]. destruct (fh_norequest (fs_h m0)); [cbn; eauto|]. destruct (fh_request (fs_h m0)); cbn; eauto.
  - unfold do_ffinal. destruct (nth_error (fc_subs c) j) as [m0|] eqn:Ej; [|cbn; eauto]. destruct (fh_finally (fs_h m0)); cbn [femit fc_trace].
    + exists [VSignal j g; VFinally j g]. split; [reflexivity|]. apply (F j g true).
    + cbn; eauto.
  - cbn; eauto.
  - cbn; eauto.
  - unfold do_req. destruct (nth_error (fc_subs c) j) as [m0|] eqn:Ej; [|cbn; eauto]. destruct (fs_request m0); [cbn; eauto|exact Z].
  - unfold do_cancelfin. destruct (nth_error (fc_subs c) j) as [m0|] eqn:Ej; [|cbn; eauto]. destruct (fh_finally (fs_h m0)); cbn [femit fc_trace].
    + exists [VFinally j SigCancel]. split; [reflexivity|]. apply (F j SigCancel false).
    + cbn; eauto.
Qed.

Section Machine.
Context {V E O C St : Type}.
Notation conf := (fconf V E O C St).
Variable wasm : bool.
Variable source : nat -> list (fact V E O C).
Variable code : C -> list (fevent V E O) -> St -> option (St * list (fact V E O C)).

Lemma finals_terminated (c : conf) s : finv wasm c -> ffinals s (fc_trace c) <> [] -> terminated (fcalls s (fc_trace c)) = true.
Proof.
  intros [I _] H. specialize (I s). cbv zeta in I. destruct (nth_error (fc_subs c) s) as [m|].
  - destruct I. rewrite terminated_terminal. destruct (terminal (fcalls s (fc_trace c))) eqn:T; [reflexivity|exfalso].
    apply app_eq_nil in i_sig as [S0 _]. assert (Ce : cancels (fcalls s (fc_trace c)) = 0%nat).
    { unfold cancels. clear - T. unfold terminal in T. induction (fcalls s (fc_trace c)) as [|k l IH]; [reflexivity|]. cbn in T. destruct k; cbn in *; try discriminate; auto. }
    unfold ends in i_ends. unfold cancel_ends in i_cends. rewrite S0 in i_ends. rewrite Ce in i_cends.
    destruct (ffinals s (fc_trace c)) as [|g l]; [congruence|]. destruct (fh_finally (fs_h m)); destruct g; cbn in *; try discriminate; lia.
  - destruct I as [Q _]. rewrite q_finals in H by assumption. congruence.
Qed.
(** The result at every moment, by the number of calls of Finally. *)
Definition result_by (n : nat) (e : option E) : bres E := match n with 0%nat => Waiting | 1%nat => Returned e | _ => Crashed end.
Definition blocking (h : fhandlers V E O C) : Prop := fh_error h <> None /\ fh_finally h <> None.
Definition block_ok (c : conf) (s : nat) : Prop :=
  forall m, nth_error (fc_subs c) s = Some m -> blocking (fs_h m) ->
    block_state (shown s (fc_trace c)) = (call_err (terminal (fcalls s (fc_trace c))), result_by (List.length (ffinals s (fc_trace c))) (call_err (terminal (fcalls s (fc_trace c))))).
Lemma block_fst (c : conf) s m : finv wasm c -> nth_error (fc_subs c) s = Some m -> blocking (fs_h m) ->
  fst (block_state (shown s (fc_trace c))) = call_err (terminal (fcalls s (fc_trace c))).
Proof.
  intros [I _] Hm Hh. specialize (I s). cbv zeta in I. rewrite Hm in I. unfold block_state. rewrite fst_state, shown_errs, (i_deliv _ _ _ _ _ _ I), effective_errs by apply Hh.
  destruct (call_err _); reflexivity.
Qed.
Lemma block_step (c : conf) i s : finv wasm c -> block_ok c s -> block_ok (fstep wasm source code c i) s.
Proof.
  intros I B m' Hm' Hh'. pose proof (finv_step wasm source code c i I) as I'.
  pose proof (block_fst _ _ _ I' Hm' Hh') as F'.
  destruct (nth_error (fc_subs c) s) as [m|] eqn:Hm.
  - destruct (step_fh V E O C St wasm source code c i s m Hm) as (m2 & H2 & E2). rewrite Hm' in H2. injection H2 as <-.
    specialize (B m Hm ltac:(rewrite <- E2; exact Hh')).
    destruct (step_final V E O C St wasm source code c i s) as (ev & Ht & Hev).
    apply injective_projections; [exact F'|]. cbn [snd].
    rewrite Ht in *. clear Ht. rewrite shown_app, state_app, B.
    replace (ffinals s (fc_trace c ++ ev)) with (ffinals s (fc_trace c) ++ ffinals s ev) by (symmetry; apply flat_map_app).
    replace (fcalls s (fc_trace c ++ ev)) with (fcalls s (fc_trace c) ++ fcalls s ev) by (symmetry; apply flat_map_app).
    rewrite app_length.
    destruct Hev as [Hev|(g & Hs & Hc)].
    + rewrite see_quiet by (now rewrite shown_finals, Hev). cbn [snd]. rewrite Hev. cbn [List.length]. rewrite Nat.add_0_r.
      destruct (ffinals s (fc_trace c)) as [|g l] eqn:Ef; [reflexivity|].
      pose proof (finals_terminated c s I) as T. rewrite Ef in T. specialize (T ltac:(discriminate)). rewrite terminal_app.
      rewrite terminated_terminal in T. destruct (terminal (fcalls s (fc_trace c))); [reflexivity|discriminate].
    + rewrite Hs, Hc, app_nil_r. assert (L : List.length (ffinals s ev) = 1%nat) by (rewrite <- shown_finals, Hs; reflexivity).
      rewrite L. cbn. destruct (ffinals s (fc_trace c)) as [|g0 [|g1 l]]; cbn; try reflexivity.
  - (* the subscription is new *)
    destruct I' as [I' _]. 
    destruct (step_final V E O C St wasm source code c i s) as (ev & Ht & Hev).
    destruct I as [I _]. specialize (I s). cbv zeta in I. rewrite Hm in I. destruct I as [Q _].
    assert (Hq : quietf s (fc_trace (fstep wasm source code c i))).
    { clear - Q Hm. unfold fstep. destruct (fc_panicked c); [exact Q|]. destruct (fc_stack c) as [|it rest].
      { destruct (nth_error (fc_threads c) i); exact Q. }
      assert (QQ : forall l, (forall e : fevent V E O, In e l -> ev_sub e <> Some s) -> quietf s (fc_trace c ++ l)).
      { intros l H e He. apply in_app_iff in He as [He|He]; auto. }
      assert (NE : forall j m0, nth_error (fc_subs c) j = Some m0 -> Some j <> Some s) by (intros; congruence).
      destruct it as [[j k|j rq cn|j n|h|id fn|o|k]|j|j|j g|j g|id fn g|j n|j]; cbn [do_fitem];
        unfold do_fcall, do_onsubscribe, do_request, do_fnotify, do_handle, do_ffinal, do_req, do_cancelfin;
        try (destruct (nth_error (fc_subs c) j) as [m0|] eqn:Ej; [pose proof (NE _ _ Ej)|]);
        repeat match goal with |- context [fc_trace (match ?x with _ => _ end)] => destruct x end;
        cbn [femit fpanic fc_trace]; try exact Q; apply QQ; cbn [In]; intros x He;
        repeat (destruct He as [<-|He]); try (destruct He; fail); cbn; auto; discriminate. }
    assert (Es : shown s (fc_trace (fstep wasm source code c i)) = []).
    { unfold shown. apply flat_map_none with (s := s); [|exact Hq]. intros e He. unfold shown_of.
      assert (X : quietf s [e]) by (intros x [<-|[]]; exact He). pose proof (q_deliv s _ X) as X1. pose proof (q_finals s _ X) as X2.
      unfold delivered, ffinals in X1, X2. cbn in X1, X2. rewrite app_nil_r in X1, X2. now rewrite X1, X2. }
    rewrite Es, q_finals, q_calls by exact Hq. reflexivity.
Qed.
Lemma block_run sched (c : conf) s : finv wasm c -> block_ok c s -> block_ok (frun wasm source code sched c) s.
Proof.
  revert c. induction sched as [|i sched IH]; intros c I B; [exact B|]. apply (IH (fstep wasm source code c i)).
  - now apply finv_step.
  - now apply block_step.
Qed.
(** The last subscription exists. *)
Definition cur_ok (c : conf) : Prop := match fc_cur c with None => fc_subs c = [] | Some s => (s < List.length (fc_subs c))%nat end.
Lemma mset_length' {A} (l : list A) i x y : nth_error l i = Some y -> List.length (mset l i x) = List.length l.
Proof. intros H. assert (i < List.length l)%nat by (apply nth_error_Some; congruence). unfold mset. rewrite app_length, firstn_length. cbn [List.length]. rewrite skipn_length. lia. Qed.
Lemma cur_step (c : conf) i : cur_ok c -> cur_ok (fstep wasm source code c i).
Proof.
  intros K. unfold cur_ok in *. unfold fstep. destruct (fc_panicked c); [exact K|]. destruct (fc_stack c) as [|it rest].
  { destruct (nth_error (fc_threads c) i); exact K. }
  assert (M : forall j m0 x, nth_error (fc_subs c) j = Some m0 -> match fc_cur c with None => mset (fc_subs c) j x = [] | Some s => (s < List.length (mset (fc_subs c) j x))%nat end).
  { intros j m0 x Hj. destruct (fc_cur c); [now rewrite (mset_length' _ _ _ _ Hj)|]. rewrite K in Hj. now destruct j. }
  destruct it as [[j k|j rq cn|j n|h|id fn|o|k]|j|j|j g|j g|id fn g|j n|j]; cbn [do_fitem];
    unfold do_fcall, do_onsubscribe, do_request, do_fnotify, do_handle, do_ffinal, do_req, do_cancelfin;
    try (destruct (nth_error (fc_subs c) j) as [m0|] eqn:Ej; [pose proof (fun x => M _ _ x Ej)|]);
    repeat match goal with |- context [fc_cur (match ?x with _ => _ end)] => destruct x end;
    cbn [femit fpanic fc_cur fc_subs]; try exact K; try match goal with H : forall x, _ |- _ => apply H end.
  rewrite app_length. cbn. lia.
Qed.
Lemma cur_run sched (c : conf) : cur_ok c -> cur_ok (frun wasm source code sched c).
Proof. revert c. induction sched as [|i sched IH]; intros c K; [exact K|]. apply (IH (fstep wasm source code c i)). now apply cur_step. Qed.
End Machine.

(** ** C86: flux *)
(** At every moment: without any Cancel the process survives, and a caller
    that has returned has returned what the completion or error said. *)
Theorem C86_flux_block_safe :
  forall V E O C St source code (st : St) threads sched s m sub,
    let c : fconf V E O C St := frun false source code sched (finit st threads) in
    nth_error (fc_subs c) s = Some m -> fs_h m = block_handlers sub ->
    cancels (fcalls s (fc_trace c)) = 0%nat ->
    block_result (shown s (fc_trace c)) = Waiting \/
    exists k, terminal (fcalls s (fc_trace c)) = Some k /\ block_result (shown s (fc_trace c)) = Returned (call_err (Some k)).
Proof.
  intros V E O C St source code st threads sched s m sub c Hm Hh Hc.
  pose proof (finv_run false source code sched _ (finv_init false st threads)) as I. fold c in I.
  assert (B : block_ok c s). { apply (block_run false); [apply finv_init|]. intros m0 Hm0. now destruct s. }
  unfold block_result. rewrite (B m Hm) by (rewrite Hh; split; discriminate). cbn [snd].
  pose proof (finals_terminated false c s I) as T. destruct I as [I _]. specialize (I s). cbv zeta in I. rewrite Hm in I. destruct I.
  rewrite Hh in i_ends, i_cends. cbn in i_ends, i_cends.
  assert (L : (List.length (ffinals s (fc_trace c)) <= 1)%nat).
  { assert (X : List.length (ffinals s (fc_trace c)) = (List.length (ends s (fc_trace c)) + cancel_ends s (fc_trace c))%nat).
    { unfold ends, cancel_ends. clear. induction (ffinals s (fc_trace c)) as [|[] l IH]; cbn; lia. }
    rewrite X, i_ends. apply (f_equal (@List.length _)) in i_sig. rewrite app_length in i_sig.
    destruct (terminal _) as [[]|]; cbn in i_sig; lia. }
  destruct (ffinals s (fc_trace c)) as [|g [|g1 l]]; cbn in L |- *; [now left|right|lia].
  specialize (T ltac:(discriminate)). rewrite terminated_terminal in T. destruct (terminal _) as [k|]; [|discriminate]. eauto.
Qed.
(** When nothing is left to do: which of the three it is, for every history of
    calls. *)
Theorem C86_flux_block_outcome :
  forall V E O C St source code (st : St) threads sched s m sub,
    let c : fconf V E O C St := frun false source code sched (finit st threads) in
    nth_error (fc_subs c) s = Some m -> fs_h m = block_handlers sub -> fc_stack c = [] ->
    block_result (shown s (fc_trace c)) =
      match terminal (fcalls s (fc_trace c)), cancels (fcalls s (fc_trace c)) with
      | None, _ => Waiting
      | Some KComplete, 0%nat => Returned None
      | Some (KError e), 0%nat => Returned (Some e)
      | Some KCancel, 1%nat => Returned None
      | Some _, _ => Crashed
      end.
Proof.
  intros V E O C St source code st threads sched s m sub c Hm Hh Hk.
  pose proof (finv_run false source code sched _ (finv_init false st threads)) as I. fold c in I.
  assert (B : block_ok c s). { apply (block_run false); [apply finv_init|]. intros m0 Hm0. now destruct s. }
  unfold block_result. rewrite (B m Hm) by (rewrite Hh; split; discriminate). cbn [snd].
  destruct I as [I _]. specialize (I s). cbv zeta in I. rewrite Hm, Hk in I. destruct I.
  rewrite Hh in i_ends, i_cends. cbn in i_ends, i_cends, i_sig. rewrite app_nil_r in i_sig.
  assert (X : List.length (ffinals s (fc_trace c)) = (List.length (ends s (fc_trace c)) + cancel_ends s (fc_trace c))%nat).
  { unfold ends, cancel_ends. clear. induction (ffinals s (fc_trace c)) as [|[] l IH]; cbn; lia. }
  rewrite Nat.add_0_r in i_cends. rewrite X, i_ends, i_sig, i_cends.
  assert (Tn : forall ks : list (fcall V E), match terminal ks with None => cancels ks = 0%nat | Some KCancel => (1 <= cancels ks)%nat | Some (KNext _) => False | _ => True end).
  { clear. induction ks as [|k ks IH]; [reflexivity|]. unfold terminal, cancels in *. destruct k; cbn; auto. lia. }
  specialize (Tn (fcalls s (fc_trace c))). destruct (terminal _) as [[]|]; cbn [end_signal List.length Nat.add call_err].
  - contradiction.
  - destruct (cancels _); reflexivity.
  - destruct (cancels _); reflexivity.
  - destruct (cancels _) as [|[|]]; [lia|reflexivity|reflexivity].
  - now rewrite Tn.
Qed.
(** A caller that has returned never un-returns, but may take the process down. *)
Theorem C86_flux_block_cancel_crashes_refuted :
  let run ks := frun false (fun _ => []) fnocode (repeat 0%nat 60) (finit tt [[FSubscribe (block_handlers (FHandlers see1 None None None None true))]; map (FCall (O := N) 0) ks]) in
  let ends ks r := fc_stack (run ks) = [] /\ block_result (shown 0 (fc_trace (run ks))) = r in
  ends [KNext 1; KComplete] (Returned None) /\
  ends [KNext 1; KComplete; KCancel] Crashed /\
  ends [KCancel] (Returned None) /\
  ends [KCancel; KCancel] Crashed.
Proof. vm_compute. auto 10. Qed.
(** [flux.Block] on a flux nobody has subscribed to panics; on one whose last
    subscription has ended it returns what that one ended with. *)
Theorem C86_flux_block_entry :
  forall V E O C St source code (st : St) threads sched,
    let c : fconf V E O C St := frun false source code sched (finit st threads) in
    match flux_block_entry c with
    | EntryPanic => fc_subs c = []
    | EntryReturn e => exists s k, fc_cur c = Some s /\ terminal (fcalls s (fc_trace c)) = Some k /\ e = call_err (Some k)
    | EntrySubscribe => exists s, fc_cur c = Some s /\ terminal (fcalls s (fc_trace c)) = None
    end.
Proof.
  intros V E O C St source code st threads sched c.
  pose proof (finv_run false source code sched _ (finv_init false st threads)) as I. fold c in I. destruct I as [I _]. cbv zeta in I.
  unfold flux_block_entry. pose proof (cur_run false source code sched (finit st threads) eq_refl) as K. fold c in K. unfold cur_ok in K.
  destruct (fc_cur c) as [s|]; [|exact K]. specialize (I s). destruct (nth_error (fc_subs c) s) as [m|] eqn:Em; [|now apply nth_error_None in Em; lia].
  destruct I. rewrite terminated_terminal in i_closed. destruct (fs_closed m), (terminal (fcalls s (fc_trace c))) as [k|] eqn:T; try discriminate; eauto.
Qed.

(** ** C86: mapped flux *)
Definition fails {V D E} (tx : V -> D + E) (k : fcall V E) : bool := match k with KNext v => match tx v with inr _ => true | _ => false end | _ => false end.
(** How many values of the source took effect that cannot be mapped. *)
Definition bad {V D E} (tx : V -> D + E) (ks : list (fcall V E)) : nat := List.length (filter (fails tx) (effective ks)).
Definition obad {V D E} (tx : V -> D + E) (o : fobs V E) : bool := match o with ONext v => match tx v with inr _ => true | _ => false end | _ => false end.
Lemma visible_bad {V E O C D} (tx : V -> D + E) (h : fhandlers V E O C) ks : fh_next h <> None ->
  filter (obad tx) (flat_map (visible h) ks) = map (fun k => match k with KNext v => ONext v | _ => OComplete end) (filter (fails tx) ks).
Proof.
  intros Hn. induction ks as [|k ks IH]; [reflexivity|]. cbn [flat_map]. rewrite filter_app, IH. destruct k; cbn [visible fails filter].
  - destruct (fh_next h); [|congruence]. cbn. now destruct (tx v).
  - destruct (fh_complete h); reflexivity.
  - destruct (fh_error h); reflexivity.
  - reflexivity.
Qed.
Lemma expected_finals {V E D} (tx : V -> D + E) n (t : list (fevent V E (fobs D E))) :
  finals_in (expected (map_image tx n true true) t) = (List.length (filter (obad tx) (delivered 0 t)) + List.length (ffinals 0 t))%nat.
Proof.
  unfold finals_in, expected, delivered, ffinals. induction t as [|ev t IH]; [reflexivity|]. cbn [flat_map]. rewrite !filter_app, !app_length, IH.
  match goal with |- (?a + (?b + ?c))%nat = (?d + ?b + (?e + ?c))%nat => cut (a = d + e)%nat; [lia|] end. clear.
  destruct ev as [| [|s] v|[|s]|[|s] e| |[|s] g'| | | | | | | |]; cbn; try reflexivity. destruct (tx v); [destruct n|]; reflexivity.
Qed.
(** Without failures the blocked caller is told the same. *)
Lemma expected_same {V E D} (tx : V -> D + E) n (t : list (fevent V E (fobs D E))) :
  filter (obad tx) (delivered 0 t) = [] -> block_state (expected (map_image tx n true true) t) = block_state (shown 0 t).
Proof.
  unfold block_state. generalize (@None E, @Waiting E). induction t as [|ev t IH]; intros st H; [reflexivity|].
  unfold expected, shown, delivered in *. cbn [flat_map] in *. rewrite filter_app in H. apply app_eq_nil in H as [H1 H2]. rewrite !fold_left_app, <- (IH _ H2). f_equal.
  clear - H1. destruct ev as [| [|s] v|[|s]|[|s] e| |[|s] g'| | | | | | | |]; cbn in *; try reflexivity. destruct (tx v); [destruct n; reflexivity|discriminate].
Qed.
(** With one failure and no end it is told that failure. *)
Lemma expected_one {V E D} (tx : V -> D + E) n (t : list (fevent V E (fobs D E))) v :
  filter (obad tx) (delivered 0 t) = [ONext v] -> ffinals 0 t = [] -> 
  exists e, tx v = inr e /\ block_result (expected (map_image tx n true true) t) = Returned (Some e).
Proof.
  unfold block_result, block_state. generalize (@None E). induction t as [|ev t IH]; intros er H F; [discriminate|].
  unfold expected, ffinals, delivered in *. cbn [flat_map] in *. rewrite filter_app in H. apply app_eq_nil in F as [F1 F2]. rewrite !fold_left_app.
  destruct (filter (obad tx) (deliv_of 0 ev)) as [|o os] eqn:B.
  - assert (X : exists er', fold_left block_see (expect_of (map_image tx n true true) ev) (er, Waiting) = (er', Waiting)).
    { clear - B F1. destruct ev as [| [|s] v|[|s]|[|s] e| |[|s] g'| | | | | | | |]; cbn in *; eauto; [destruct (tx v); [destruct n; cbn; eauto|discriminate]|discriminate]. }
    destruct X as [er' ->]. now apply IH.
  - injection H as -> H. destruct ev as [| [|s] v'|[|s]|[|s] e| |[|s] g'| | | | | | | |]; cbn in B; try discriminate.
    destruct (tx v') as [d|e] eqn:T; [discriminate|]. injection B as -> <-. exists e. split; [exact T|]. cbn [app] in H.
    cbn [expect_of map_image im_next]. rewrite T. cbn. rewrite see_quiet; [reflexivity|].
    fold (expected (map_image tx n true true) t). rewrite expected_finals. unfold delivered, ffinals. now rewrite H, F2.
Qed.
(** Block on a mapped flux, for every history: with one end and no failure as
    before, with one failure and no end that failure; two of these, of whatever
    kind, and the process is gone. *)
Theorem C86_mapped_block_outcome :
  forall V E D C St source code (st : St) (tx : V -> D + E) dn dc ue dr uf nr threads sched,
    let de := Some (block_error ue) in
    let df := Some (block_finally uf) in
    quiet_world source code tx dn dc de dr df -> Forall (Forall silent) threads ->
    let c : fconf V E (fobs D E) C St := mapped_run false source code st tx dn dc de dr df nr threads sched in
    fc_stack c = [] ->
    let ks := fcalls 0 (fc_trace c) in
    match bad tx ks, (List.length (end_signal (terminal ks)) + cancels ks)%nat with
    | 0%nat, 0%nat => block_result (observed (fc_trace c)) = Waiting
    | 0%nat, 1%nat => block_result (observed (fc_trace c)) = Returned (call_err (terminal ks))
    | 1%nat, 0%nat => exists v e, In (KNext v) (effective ks) /\ tx v = inr e /\ block_result (observed (fc_trace c)) = Returned (Some e)
    | _, _ => block_result (observed (fc_trace c)) = Crashed
    end.
Proof.
  intros V E D C St source code st tx dn dc ue dr uf nr threads sched de df Hw Hth c Hk ks.
  pose proof (C54_mapped_events V E D C St false source code st tx dn dc de dr df nr threads sched Hw Hth Hk) as Ho. fold c in Ho.
  change (has de) with true in Ho. change (has df) with true in Ho. set (im := map_image tx (has dn) true true) in *.
  assert (Hs : exists m, nth_error (fc_subs c) 0 = Some m /\ fs_h m = fmap_handlers tx dn dc de dr df nr).
  { unfold c, mapped_run. change (0%nat :: 0%nat :: sched) with ([0%nat; 0%nat] ++ sched). unfold frun. rewrite fold_left_app.
    apply run_fh with (m := {| fs_closed := false; fs_n := 0; fs_err := None; fs_request := None; fs_cancel := None; fs_signal := SigComplete; fs_h := fmap_handlers tx dn dc de dr df nr |}).
    reflexivity. }
  destruct Hs as (m & Hm & Hh).
  pose proof (finv_run false source code (0 :: 0 :: sched)%nat _ (finv_init false st ([FSubscribe (fmap_handlers tx dn dc de dr df nr)] :: threads))) as I.
  change (frun false source code (0 :: 0 :: sched)%nat (finit st ([FSubscribe (fmap_handlers tx dn dc de dr df nr)] :: threads))) with c in I.
  assert (B : block_ok c 0%nat). { unfold c, mapped_run. apply (block_run false); [apply finv_init|]. intros m0 Hm0. discriminate. }
  specialize (B m Hm ltac:(rewrite Hh; split; discriminate)). clearbody c.
  destruct I as [I _]. specialize (I 0%nat). cbv zeta in I. rewrite Hm, Hk in I. destruct I.
  rewrite Hh in i_ends, i_cends, i_deliv. cbn in i_ends, i_cends, i_sig. rewrite app_nil_r in i_sig. rewrite Nat.add_0_r in i_cends. 
  assert (X : List.length (ffinals 0 (fc_trace c)) = (List.length (end_signal (terminal ks)) + cancels ks)%nat).
  { unfold ks. rewrite <- i_sig, <- i_ends, <- i_cends. unfold ends, cancel_ends. clear. induction (ffinals 0 (fc_trace c)) as [|[] l IH]; cbn; lia. }
  assert (Y : filter (obad tx) (delivered 0 (fc_trace c)) = map (fun k => match k with KNext v => ONext v | _ => OComplete end) (filter (fails tx) (effective ks))).
  { rewrite i_deliv. apply visible_bad. discriminate. }
  assert (Z : List.length (filter (obad tx) (delivered 0 (fc_trace c))) = bad tx ks) by (rewrite Y; apply map_length).
  pose proof (result_count (observed (fc_trace c))) as R. rewrite Ho in R |- *. unfold im in R. rewrite expected_finals, Z, X in R. fold im in R.
  destruct (bad tx ks) as [|[|n]] eqn:Eb.
  - rewrite Nat.add_0_l in R. destruct (_ + _)%nat as [|[|q]] eqn:En; [exact R| |exact R].
    unfold block_result, im. rewrite expected_same; [|now destruct (filter (obad tx) _)]. rewrite B, X. reflexivity.
  - destruct (_ + cancels ks)%nat as [|q] eqn:En; [|exact R].
    unfold bad in Eb. destruct (filter (fails tx) (effective ks)) as [|k [|k' l]] eqn:Ek; try discriminate.
    assert (Hin : In k (filter (fails tx) (effective ks))) by (rewrite Ek; now left). apply filter_In in Hin as [Hin Hf]. destruct k as [v| | |]; try discriminate.
    destruct (expected_one tx (has dn) (fc_trace c) v Y) as (e & T & Er). { now destruct (ffinals 0 (fc_trace c)). }
    exists v, e. auto.
  - exact R.
Qed.
(** In particular: a source that sends a value that cannot be mapped (for a
    remote stream: a payload that does not decode) and then ends takes the
    blocked process down. *)
Theorem C86_bad_value_then_end_crashes_refuted :
  forall V E D C St source code (st : St) (tx : V -> D + E) dn dc ue dr uf nr threads sched v e,
    let de := Some (block_error ue) in
    let df := Some (block_finally uf) in
    quiet_world source code tx dn dc de dr df -> Forall (Forall silent) threads ->
    let c : fconf V E (fobs D E) C St := mapped_run false source code st tx dn dc de dr df nr threads sched in
    fc_stack c = [] ->
    let ks := fcalls 0 (fc_trace c) in
    In (KNext v) (effective ks) -> tx v = inr e -> terminal ks <> None ->
    block_result (observed (fc_trace c)) = Crashed.
Proof.
  intros V E D C St source code st tx dn dc ue dr uf nr threads sched v e de df Hw Hth c Hk ks Hin Hv Ht.
  pose proof (C86_mapped_block_outcome V E D C St source code st tx dn dc ue dr uf nr threads sched Hw Hth Hk) as R. cbv zeta in R. fold de df c ks in R.
  assert (B : (1 <= bad tx ks)%nat).
  { unfold bad. assert (X : In (KNext v) (filter (fails tx) (effective ks))) by (apply filter_In; split; [exact Hin|]; cbn; now rewrite Hv).
    destruct (filter _ _); [destruct X|cbn; lia]. }
  assert (N0 : (1 <= List.length (end_signal (terminal ks)) + cancels ks)%nat).
  { destruct (terminal ks) as [[]|] eqn:T; cbn; try lia; [|apply find_some in T as [T1 T2]|congruence].
    - apply find_some in T as [_ T]. discriminate.
    - unfold cancels. assert (X : In KCancel (filter is_cancel ks)) by (apply filter_In; auto). destruct (filter _ _); [destruct X|cbn; lia]. }
  destruct (bad tx ks) as [|[|n]]; [lia| |exact R]. destruct (_ + _)%nat; [lia|exact R].
Qed.
(** And the flux [Error], mapped, leaves every caller of Block waiting for ever
    (Finally is never called), while unmapped Block returns the error. *)
Definition records {V D E C} (a : fdact V E D C) : list (fobs D E) := match a with FObs o => [o] | _ => [] end.
Lemma silent_records {V D E C} (l : list (fdact V E D C)) : Forall silent l -> flat_map records l = [].
Proof. intros H. induction l as [|a l IH]; [reflexivity|]. apply Forall_cons_iff in H as [Ha Hl]. cbn [flat_map]. rewrite (IH Hl). now destruct Ha. Qed.
Theorem C86_mapped_error_flux_hangs_refuted :
  forall V D E C (e : E) (tx : V -> D + E) dn dc (ue : option (list (fdev V E D) -> E -> list (fdact V E D C))) dr uf nr,
    (forall f, ue = Some f -> forall t x, Forall silent (f t x)) ->
    let sub := fmap_handlers tx dn dc (Some (block_error ue)) dr (Some (block_finally uf)) nr in
    block_result (flat_map records (error_subscribe e sub)) = Waiting /\
    error_flux_block e = Returned (Some e).
Proof.
  intros V D E C e tx dn dc ue dr uf nr Hu sub. split; [|reflexivity]. cbn. 
  assert (X : flat_map records (block_error ue [] e) = []).
  { unfold block_error. destruct ue as [f|]; [|reflexivity]. apply silent_records, (Hu f eq_refl). }
  rewrite X. reflexivity.
Qed.

(** ** C86: mono *)
(** For every history of calls: a blocked caller returns the outcome of the
    first call and nothing ever closes the channel again; after a Cancel it
    waits for ever. *)
Theorem C86_mono_block_outcome :
  forall V E O C St source code (st : St) threads sched s m,
    let c : mconf V E O C St := mrun source code sched (minit st threads) in
    nth_error (mc_subs c) s = Some m -> ms_h m = mono_block_handlers ->
    mblock_result (outcomes s (mc_trace c)) =
      match calls s (mc_trace c) with
      | [] => MWaiting
      | CSuccess v :: _ => MReturned (inl v)
      | CError e :: _ => MReturned (inr e)
      | CCancel :: _ => MWaiting
      end.
Proof.
  intros V E O C St source code st threads sched s m c Hm Hh.
  pose proof (minv_run source code sched _ (minv_init st threads) s) as I. fold c in I. rewrite Hm in I. destruct I.
  rewrite si_out, Hh. destruct (calls s (mc_trace c)) as [|[] l]; reflexivity.
Qed.
(** The same for a mapped mono; the error of a failed mapping is an outcome. *)
Definition dres {D E} (o : dobs D E) : D + E := match o with DSuccess d => inl d | DError e => inr e end.
Theorem C86_mapped_mono_block_outcome :
  forall V E D C St source code tx (st : St) threads sched,
    (forall s, Forall MonoProps.silent (source s)) ->
    (forall k t st st' l, code k t st = Some (st', l) -> Forall MonoProps.silent l) ->
    Forall (Forall MonoProps.silent) threads ->
    let sub := map_handlers tx (Some (fun _ _ => [])) (Some (fun _ _ => [])) None in
    let c : mconf V E (dobs D E) C St := mrun source code (0%nat :: 0%nat :: sched) (minit st ([ASubscribe sub] :: threads)) in
    mc_stack c = [] ->
    mblock_result (map dres (MonoProps.observed (mc_trace c))) =
      match calls 0 (mc_trace c) with
      | [] => MWaiting
      | CSuccess v :: _ => MReturned (tx v)
      | CError e :: _ => MReturned (inr e)
      | CCancel :: _ => MWaiting
      end.
Proof.
  intros V E D C St source code tx st threads sched Hs Hc Ht sub c Hk.
  assert (T := C55_map_delivers_mapped_outcome V E D C St source code tx (Some (fun _ _ => [])) (Some (fun _ _ => [])) None st threads sched Hs Hc
              ltac:(intros f Hf; injection Hf as <-; constructor) ltac:(intros f Hf; injection Hf as <-; constructor) ltac:(discriminate) Ht Hk).
  change (mrun source code (0%nat :: 0%nat :: sched) (minit st ([ASubscribe (map_handlers tx (Some (fun _ _ => [])) (Some (fun _ _ => [])) None)] :: threads))) with c in T.
  destruct (calls 0 (mc_trace c)) as [|[v|e|] l]; destruct T as [-> _]; try reflexivity. destruct (tx v); reflexivity.
Qed.
(** The shortcut of [mono.Block]: taken exactly when the last subscription has
    had its outcome, and then that outcome is returned; after a Cancel that is
    the zero value without an error. *)
Theorem C86_mono_block_entry :
  forall V E O C St source code (st : St) threads sched m,
    let c : mconf V E O C St := mrun source code sched (minit st threads) in
    mc_subs c = [m] -> mc_cur c = Some 0%nat ->
    mono_block_entry c =
      match calls 0 (mc_trace c) with
      | [] => None
      | CSuccess v :: _ => Some (Some v, None)
      | CError e :: _ => Some (None, Some e)
      | CCancel :: _ => Some (None, None)
      end.
Proof.
  intros V E O C St source code st threads sched m c Hs Hc.
  pose proof (minv_run source code sched _ (minv_init st threads) 0%nat) as I. fold c in I. rewrite Hs in I. cbn in I. destruct I.
  unfold mono_block_entry. rewrite Hc, Hs. cbn. rewrite si_closed, si_value, si_err. destruct (calls 0 (mc_trace c)) as [|[] l]; reflexivity.
Qed.

Definition mnocode {O} (c : Empty_set) (_ : list (mevent N N O)) (_ : unit) : option (unit * list (mact N N O Empty_set)) := match c with end.
Definition c86_flux (tx : N -> N + N) (ks : list (fcall N N)) : fconf N N (fobs N N) Empty_set unit :=
  mapped_run false (fun _ => []) fnocode tt tx (Some (fun _ _ => [])) None (Some (block_error None)) None (Some (block_finally (Some (fun _ _ => [FCall 0 (KNext 2)])))) true
    [map (FCall 0) ks] (repeat 0%nat 60).
Definition c86_mono (ks : list (mcall N N)) : mconf N N N Empty_set unit :=
  mrun (fun _ => []) mnocode (repeat 0%nat 30) (minit tt [[ASubscribe mono_block_handlers]; map (ACall 0) ks]).
Example C86_example :
  (let c := frun false (fun _ => []) fnocode (repeat 0%nat 60) (finit tt [[FSubscribe (block_handlers (FHandlers see1 None (Some (fun _ e => [FCall 0 (KNext e)])) None None true))]; [FCall (O := N) 0 (KNext 4); FCall 0 (KError 9); FCall 0 (KError 8)]]) in
   fc_stack c = [] /\ cancels (fcalls 0 (fc_trace c)) = 0%nat /\ shown 0 (fc_trace c) = [ONext 4; OError 9; OFinally SigError] /\
   block_result (shown 0 (fc_trace c)) = Returned (Some 9) /\ flux_block_entry c = EntryReturn (Some 9)) /\
  (let r ks := (observed (fc_trace (c86_flux half ks)), block_result (observed (fc_trace (c86_flux half ks)))) in
   fc_stack (c86_flux half [KNext 6; KNext 7; KComplete]) = [] /\
   r [KNext 6; KComplete] = ([ONext 3; OFinally SigComplete], Returned None) /\
   r [KNext 6; KNext 7] = ([ONext 3; OError 7; OFinally SigError; ONext 1], Returned (Some 7)) /\
   r [KNext 6; KNext 7; KComplete] = ([ONext 3; OError 7; OFinally SigError; ONext 1; OFinally SigComplete], Crashed)) /\
  mblock_result (outcomes 0 (mc_trace (c86_mono [CSuccess 3; CError 4; CCancel]))) = MReturned (inl 3) /\
  mono_block_entry (c86_mono [CSuccess 3; CError 4; CCancel]) = Some (Some 3, None) /\
  mblock_result (outcomes 0 (mc_trace (c86_mono [CCancel; CSuccess 3]))) = MWaiting /\
  mono_block_entry (c86_mono [CCancel; CSuccess 3]) = Some (None, None).
Proof. vm_compute. repeat split. Qed.
Print Assumptions C86_flux_block_safe.
Print Assumptions C86_flux_block_outcome.
Print Assumptions C86_flux_block_cancel_crashes_refuted.
Print Assumptions C86_flux_block_entry.
Print Assumptions C86_mapped_block_outcome.
Print Assumptions C86_bad_value_then_end_crashes_refuted.
Print Assumptions C86_mapped_error_flux_hangs_refuted.
Print Assumptions C86_mono_block_outcome.
Print Assumptions C86_mapped_mono_block_outcome.
Print Assumptions C86_mono_block_entry.
