(** C51, C52, C53, C54, C58, C77: fluxes.  The functions of traces [fcalls], [delivered],
    [ends], [cancel_ends], ... and the small specification [effective],
    [terminal], [visible] are in FluxFacts.v. *)
From Verif Require Import Base MonoModel MonoFacts FluxModel FluxFacts.
From Coq Require Import Permutation.
Local Ltac Zify.zify_post_hook ::= Z.div_mod_to_equations.

(** ** C51 *)
(** Values, then at most one completion or error, then nothing. *)
Inductive grammar {V E} : list (fobs V E) -> Prop :=
| g_nil : grammar []
| g_complete : grammar [OComplete]
| g_error e : grammar [OError e]
| g_next v l : grammar l -> grammar (ONext v :: l).
(** At every moment of every execution: exactly the effective calls have been
    shown, in order, and the sequence obeys the grammar. *)
Theorem C51_effective_calls_delivered :
  forall V E O C St wasm source code (st : St) threads sched s m,
    let c : fconf V E O C St := frun wasm source code sched (finit st threads) in
    nth_error (fc_subs c) s = Some m ->
    delivered s (fc_trace c) = flat_map (visible (fs_h m)) (effective (fcalls s (fc_trace c))).
Proof.
  intros. pose proof (proj1 (finv_run wasm source code sched _ (finv_init wasm st threads)) s) as I. cbv zeta in I. fold c in I.
  rewrite H in I. apply I.
Qed.
Lemma visible_grammar V E O C (h : fhandlers V E O C) ks : grammar (flat_map (visible h) (effective ks)).
Proof.
  induction ks as [|k ks IH]; [constructor|]. cbn [effective]. destruct k; cbn [is_term flat_map visible app].
  - destruct (fh_next h); cbn [app]; [now constructor|exact IH].
  - destruct (fh_complete h); constructor.
  - destruct (fh_error h); constructor.
  - constructor.
Qed.
Theorem C51_event_grammar :
  forall V E O C St wasm source code (st : St) threads sched s,
    let c : fconf V E O C St := frun wasm source code sched (finit st threads) in
    grammar (delivered s (fc_trace c)).
Proof.
  intros. pose proof (proj1 (finv_run wasm source code sched _ (finv_init wasm st threads)) s) as I. cbv zeta in I. fold c in I.
  destruct (nth_error (fc_subs c) s) as [m|].
  - rewrite (i_deliv _ _ _ _ _ _ I). apply visible_grammar.
  - destruct I as [Q _]. rewrite q_deliv by assumption. constructor.
Qed.
(** Finally is called for the completion or error that took effect, not before
    it, and never twice; when nothing is left to do it has been called. *)
Theorem C51_finally_once :
  forall V E O C St wasm source code (st : St) threads sched s m,
    let c : fconf V E O C St := frun wasm source code sched (finit st threads) in
    nth_error (fc_subs c) s = Some m ->
    (ends s (fc_trace c) = [] \/ ends s (fc_trace c) = end_signal (terminal (fcalls s (fc_trace c)))) /\
    (fc_stack c = [] -> ends s (fc_trace c) = if fh_finally (fs_h m) then end_signal (terminal (fcalls s (fc_trace c))) else []).
Proof.
  intros V E O C St wasm source code st threads sched s m c H.
  pose proof (proj1 (finv_run wasm source code sched _ (finv_init wasm st threads)) s) as I. cbv zeta in I. fold c in I.
  rewrite H in I. destruct I. rewrite i_ends. split.
  - destruct (fh_finally (fs_h m)); [|now left]. rewrite <- i_sig.
    assert (L : (List.length (end_signal (terminal (fcalls s (fc_trace c)))) <= 1)%nat) by (destruct (terminal _) as [[]|]; cbn; lia).
    rewrite <- i_sig, app_length in L. destruct (fsignals s (fc_trace c)) as [|g gs]; [now left|right]. cbn in L.
    destruct gs; [|cbn in L; lia]. destruct (fpend s (fc_stack c)); [reflexivity|cbn in L; lia].
  - intros Hk. rewrite Hk in i_sig. cbn in i_sig. rewrite app_nil_r in i_sig. now rewrite i_sig.
Qed.
Definition fnocode {O} (c : Empty_set) (_ : list (fevent N N O)) (_ : unit) : option (unit * list (fact N N O Empty_set)) := match c with end.
Definition see1 : option (list (fevent N N N) -> N -> list (fact N N N Empty_set)) := Some (fun _ _ => []).
(** A subscriber that calls the sink from its own callbacks. *)
Definition c51_conf : fconf N N N Empty_set unit :=
  frun false (fun _ => []) fnocode (repeat 0%nat 60)
    (finit tt [[FSubscribe (FHandlers (Some (fun _ v => if v =? 2 then [FCall 0 KComplete; FCall 0 (KNext 9)] else [])) (Some (fun _ => [FCall 0 (KError 4)])) see1 None (Some (fun _ _ => [FCall 0 (KNext 8)])) false)];
               [FCall 0 (KNext 1); FCall 0 (KNext 2); FCall 0 (KNext 3)]; [FCall 0 (KError 5)]]).
Example C51_example :
  fc_stack c51_conf = [] /\ delivered 0 (fc_trace c51_conf) = [ONext 1; ONext 2; OComplete] /\ ends 0 (fc_trace c51_conf) = [SigComplete] /\
  fcalls 0 (fc_trace c51_conf) = [KNext 1; KNext 2; KComplete; KError 4; KNext 8; KNext 9; KNext 3; KError 5] /\ List.length (fc_subs c51_conf) = 1%nat.
Proof. vm_compute. repeat split. Qed.
Print Assumptions C51_effective_calls_delivered.
Print Assumptions C51_event_grammar.
Print Assumptions C51_finally_once.

(** ** C52 *)
Lemma step_fh V E O C St wasm source code (c : fconf V E O C St) i s m :
  nth_error (fc_subs c) s = Some m -> exists m', nth_error (fc_subs (fstep wasm source code c i)) s = Some m' /\ fs_h m' = fs_h m.
Proof.
  assert (S1 : forall j m0 m1, nth_error (fc_subs c) j = Some m0 -> fs_h m1 = fs_h m0 -> nth_error (fc_subs c) s = Some m ->
               exists m', nth_error (mset (fc_subs c) j m1) s = Some m' /\ fs_h m' = fs_h m).
  { intros j m0 m1 Hj Hh Hs. rewrite nth_mset by (eapply nth_some_lt; eauto).
    destruct (Nat.eqb j s) eqn:X; [|eauto]. apply Nat.eqb_eq in X as ->. rewrite Hj in Hs. injection Hs as ->. eauto. }
  intros H. unfold fstep. destruct (fc_panicked c); [eauto|]. destruct (fc_stack c) as [|it rest].
  { destruct (nth_error (fc_threads c) i); eauto. }
  destruct it as [[j k|j rq cn|j n|h|id fn|o|k]|j|j|j g|j g|id fn g|j n|j]; cbn [do_fitem].
  - unfold do_fcall. destruct (nth_error (fc_subs c) j) as [m0|] eqn:Ej; [|eauto].
    destruct k; [destruct (fs_closed m0); [eauto|]; destruct (fh_next (fs_h m0))|destruct (fs_closed m0); [eauto|]; destruct (fh_complete (fs_h m0))
                |destruct (fs_closed m0); [eauto|]; destruct (fh_error (fs_h m0))|destruct (fs_cancel m0)]; cbn [femit fc_subs]; eapply S1; eauto.
  - unfold do_onsubscribe. destruct (nth_error (fc_subs c) j) as [m0|] eqn:Ej; [|eauto]. destruct (fs_closed m0); [eauto|].
    destruct (fs_n m0 >? 0)%Z; [destruct wasm|]; cbn [femit fc_subs]; eapply S1; eauto.
  - unfold do_request. destruct (nth_error (fc_subs c) j) as [m0|] eqn:Ej; [|eauto].
    destruct (fs_request m0); [destruct wasm|]; cbn [femit fc_subs]; eapply S1; eauto.
  - cbn [fc_subs]. exists m. split; [|reflexivity]. rewrite nth_error_app1; [assumption|]. eapply nth_some_lt; eauto.
  - unfold do_fnotify. destruct (match fc_cur c with Some _ => _ | None => _ end) as [m0|]; [destruct (fs_closed m0)|]; eauto.
  - eauto.
  - destruct (code k (fc_trace c) (fc_store c)) as [[? ?]|]; eauto.
  - destruct (nth_error (fc_subs c) j); eauto.
  - unfold do_handle. destruct (nth_error (fc_subs c) j) as [m0|]; [|eauto]. destruct (fh_norequest (fs_h m0)); [eauto|]. destruct (fh_request (fs_h m0)); eauto.
  - unfold do_ffinal. destruct (nth_error (fc_subs c) j) as [m0|] eqn:Ej; [|eauto]. destruct (fh_finally (fs_h m0)); cbn [femit fc_subs]; eapply S1; eauto.
  - eauto.
  - eauto.
  - unfold do_req. destruct (nth_error (fc_subs c) j) as [m0|] eqn:Ej; [|eauto]. destruct (fs_request m0); eauto.
  - unfold do_cancelfin. destruct (nth_error (fc_subs c) j) as [m0|] eqn:Ej; [|eauto]. destruct (fh_finally (fs_h m0)); eauto.
Qed.
Lemma step_ftrace V E O C St wasm source code (c : fconf V E O C St) i : exists ev, fc_trace (fstep wasm source code c i) = fc_trace c ++ ev.
Proof.
  assert (Z : exists ev, fc_trace c = fc_trace c ++ ev) by (exists []; now rewrite app_nil_r).
  unfold fstep. destruct (fc_panicked c); [exact Z|]. destruct (fc_stack c) as [|it rest].
  { destruct (nth_error (fc_threads c) i); exact Z. }
  destruct it as [[j k|j rq cn|j n|h|id fn|o|k]|j|j|j g|j g|id fn g|j n|j]; cbn [do_fitem].
  - unfold do_fcall. destruct (nth_error (fc_subs c) j) as [m0|] eqn:Ej; [|cbn; eauto].
    destruct k; [destruct (fs_closed m0); [cbn; eauto|]; destruct (fh_next (fs_h m0))|destruct (fs_closed m0); [cbn; eauto|]; destruct (fh_complete (fs_h m0))
                |destruct (fs_closed m0); [cbn; eauto|]; destruct (fh_error (fs_h m0))|destruct (fs_cancel m0)]; cbn; eauto.
  - unfold do_onsubscribe. destruct (nth_error (fc_subs c) j) as [m0|] eqn:Ej; [|cbn; eauto]. destruct (fs_closed m0); [cbn; eauto|].
    destruct (fs_n m0 >? 0)%Z; [destruct wasm|]; cbn; eauto.
  - unfold do_request. destruct (nth_error (fc_subs c) j) as [m0|] eqn:Ej; [|cbn; eauto].
    destruct (fs_request m0); [destruct wasm|]; cbn; eauto.
  - exact Z.
  - unfold do_fnotify. destruct (match fc_cur c with Some _ => _ | None => _ end) as [m0|]; [destruct (fs_closed m0)|]; cbn; eauto.
  - cbn; eauto.
  - destruct (code k (fc_trace c) (fc_store c)) as [[? ?]|]; exact Z.
  - destruct (nth_error (fc_subs c) j); cbn; eauto.
  - unfold do_handle. destruct (nth_error (fc_subs c) j) as [m0|]; [|cbn; eauto]. destruct (fh_norequest (fs_h m0)); [cbn; eauto|]. destruct (fh_request (fs_h m0)); cbn; eauto.
  - unfold do_ffinal. destruct (nth_error (fc_subs c) j) as [m0|] eqn:Ej; [|cbn; eauto]. destruct (fh_finally (fs_h m0)); cbn; eauto.
  - cbn; eauto.
  - cbn; eauto.
  - unfold do_req. destruct (nth_error (fc_subs c) j) as [m0|] eqn:Ej; [|cbn; eauto]. destruct (fs_request m0); [cbn; eauto|exact Z].
  - unfold do_cancelfin. destruct (nth_error (fc_subs c) j) as [m0|] eqn:Ej; [|cbn; eauto]. destruct (fh_finally (fs_h m0)); cbn; eauto.
Qed.
Lemma run_fh V E O C St wasm source code sched (c : fconf V E O C St) s m :
  nth_error (fc_subs c) s = Some m -> exists m', nth_error (fc_subs (frun wasm source code sched c)) s = Some m' /\ fs_h m' = fs_h m.
Proof.
  revert c m. induction sched as [|i sched IH]; intros c m H; [cbn; eauto|]. cbn.
  destruct (step_fh V E O C St wasm source code c i s m H) as (m1 & H1 & E1). destruct (IH _ _ H1) as (m2 & H2 & E2).
  exists m2. split; [exact H2|]. congruence.
Qed.
Lemma run_ftrace V E O C St wasm source code sched (c : fconf V E O C St) :
  exists ev, fc_trace (frun wasm source code sched c) = fc_trace c ++ ev.
Proof.
  revert c. induction sched as [|i sched IH]; intros c; [exists []; cbn; now rewrite app_nil_r|].
  change (frun wasm source code (i :: sched) c) with (frun wasm source code sched (fstep wasm source code c i)).
  destruct (IH (fstep wasm source code c i)) as [ev ->]. destruct (step_ftrace V E O C St wasm source code c i) as [ev' ->].
  rewrite <- app_assoc. eauto.
Qed.
(** Once Cancel (or Complete or Error) has been called nothing is delivered any
    more, whatever happens. *)
Theorem C52_nothing_delivered_after_cancel :
  forall V E O C St wasm source code (st : St) threads sched sched' s,
    let c : fconf V E O C St := frun wasm source code sched (finit st threads) in
    let c' := frun wasm source code sched' c in
    In KCancel (fcalls s (fc_trace c)) -> delivered s (fc_trace c') = delivered s (fc_trace c).
Proof.
  intros V E O C St wasm source code st threads sched sched' s c c' Hin.
  pose proof (finv_run wasm source code sched _ (finv_init wasm st threads)) as I. fold c in I.
  pose proof (finv_run wasm source code sched' _ I) as I'. fold c' in I'.
  destruct I as [I _]. destruct I' as [I' _]. specialize (I s). specialize (I' s). cbv zeta in I, I'.
  destruct (nth_error (fc_subs c) s) as [m|] eqn:Em.
  2:{ destruct I as [Q _]. rewrite q_calls in Hin by assumption. destruct Hin. }
  destruct (run_fh V E O C St wasm source code sched' c s m Em) as (m' & Em' & Hh). fold c' in Em'. rewrite Em' in I'.
  rewrite (i_deliv _ _ _ _ _ _ I), (i_deliv _ _ _ _ _ _ I'), Hh.
  destruct (run_ftrace V E O C St wasm source code sched' c) as [ev Hev]. fold c' in Hev. rewrite Hev.
  unfold fcalls at 1. rewrite flat_map_app. fold (fcalls s (fc_trace c)). rewrite effective_app.
  replace (terminated (fcalls s (fc_trace c))) with true; [reflexivity|]. symmetry. apply existsb_exists. eauto.
Qed.
(** But every Cancel runs Finally again, and the cancel action announced last,
    also after a completion. *)
Theorem C52_every_cancel_counts :
  forall V E O C St wasm source code (st : St) threads sched s m,
    let c : fconf V E O C St := frun wasm source code sched (finit st threads) in
    nth_error (fc_subs c) s = Some m -> 
    srccancels s (fc_trace c) = snd (scan s (fc_trace c)) /\
    (fc_stack c = [] -> fh_finally (fs_h m) <> None -> cancel_ends s (fc_trace c) = cancels (fcalls s (fc_trace c))).
Proof.
  intros V E O C St wasm source code st threads sched s m c H.
  pose proof (proj1 (finv_run wasm source code sched _ (finv_init wasm st threads)) s) as I. cbv zeta in I. fold c in I.
  rewrite H in I. destruct I. split; [exact i_src|]. intros Hk Hf. rewrite Hk in i_cends.
  destruct (fh_finally (fs_h m)); [|congruence]. cbn in i_cends. lia.
Qed.
(** A notification registered after a cancellation is told SignalComplete. *)
Theorem C52_late_notification_reports_completion :
  forall V E O C St wasm source code (st : St) threads sched i s id fn rest,
    let c : fconf V E O C St := frun wasm source code sched (finit st threads) in
    fc_panicked c = false -> fc_stack c = FAct (FNotify id fn) :: rest -> fc_cur c = Some s ->
    terminal (fcalls s (fc_trace c)) = Some KCancel ->
    fc_stack (fstep wasm source code c i) = FFire id fn SigComplete :: rest.
Proof.
  intros V E O C St wasm source code st threads sched i s id fn rest c Hp Hk Hc Ht.
  pose proof (proj1 (finv_run wasm source code sched _ (finv_init wasm st threads)) s) as I. cbv zeta in I. fold c in I.
  unfold fstep. rewrite Hp, Hk. cbn [do_fitem]. unfold do_fnotify. rewrite Hc.
  destruct (nth_error (fc_subs c) s) as [m|].
  - destruct I. rewrite Ht in i_sig. cbn in i_sig. apply app_eq_nil in i_sig as [Sg _]. rewrite terminated_terminal, Ht in i_closed. rewrite i_closed.
    cbn [femit fc_stack]. rewrite Sg in i_cur. cbn in i_cur. now rewrite i_cur.
  - destruct I as [Q _]. rewrite q_calls in Ht by assumption. discriminate.
Qed.
Definition fnote (_ : list (fevent N N N)) (_ : signal) : list (fact N N N Empty_set) := [].
Definition c52_conf : fconf N N N Empty_set unit :=
  frun true (fun s => [FOnSubscribe s (Some (fun _ _ => [])) (Some (fun _ => []))]) fnocode (repeat 0%nat 80)
    (finit tt [[FNotify 1 fnote; FSubscribe (FHandlers see1 (Some (fun _ => [])) see1 None (Some (fun _ _ => [])) false)];
               [FCall 0 (KNext 1); FCall 0 KCancel; FCall 0 (KNext 2); FCall 0 KCancel; FCall 0 KComplete; FNotify 2 fnote]; [FCall 0 KCancel]]).
(** Three calls of the cancel action and of Finally; the notification registered
    before is never called, the one registered after is told of a completion. *)
Example C52_example :
  fc_stack c52_conf = [] /\ delivered 0 (fc_trace c52_conf) = [ONext 1] /\ srccancels 0 (fc_trace c52_conf) = 3%nat /\
  ffinals 0 (fc_trace c52_conf) = [SigCancel; SigCancel; SigCancel] /\ cancels (fcalls 0 (fc_trace c52_conf)) = 3%nat /\
  flat_map (fun ev => match ev with VFired id g => [(id, g)] | _ => [] end) (fc_trace c52_conf) = [(2, SigComplete)] /\
  terminal (fcalls 0 (fc_trace c52_conf)) = Some KCancel.
Proof. vm_compute. repeat split. Qed.
Print Assumptions C52_nothing_delivered_after_cancel.
Print Assumptions C52_every_cancel_counts.
Print Assumptions C52_late_notification_reports_completion.

(** ** What a subscriber of the first subscription observes *)
(** Code that records no observation itself. *)
Inductive silent {V E O C} : fact V E O C -> Prop :=
| sil_call s k : silent (FCall s k)
| sil_onsub s rq cn : (forall f, rq = Some f -> forall t n, Forall silent (f t n)) -> (forall f, cn = Some f -> forall t, Forall silent (f t)) -> silent (FOnSubscribe s rq cn)
| sil_request s n : silent (FRequest s n)
| sil_sub h : silent_handlers h -> silent (FSubscribe h)
| sil_notify id fn : (forall t g, Forall silent (fn t g)) -> silent (FNotify id fn)
| sil_do k : silent (FDo k)
with silent_handlers {V E O C} : fhandlers V E O C -> Prop :=
| sil_handlers a b e r f q :
    (forall fn, a = Some fn -> forall t v, Forall silent (fn t v)) -> (forall fn, b = Some fn -> forall t, Forall silent (fn t)) ->
    (forall fn, e = Some fn -> forall t v, Forall silent (fn t v)) -> (forall fn, r = Some fn -> forall t s, Forall silent (fn t s)) ->
    (forall fn, f = Some fn -> forall t g, Forall silent (fn t g)) -> silent_handlers (FHandlers a b e r f q).
Definition observed {V E O} (t : list (fevent V E O)) : list O := flat_map (fun ev => match ev with VObs o => [o] | _ => [] end) t.
(** What the events of subscription 0 should look like. *)
Record image (V E O : Type) := { im_next : V -> list O; im_complete : list O; im_error : E -> list O; im_finally : signal -> list O }.
Arguments im_next {V E O}. Arguments im_complete {V E O}. Arguments im_error {V E O}. Arguments im_finally {V E O}.
Definition expect_of {V E O} (im : image V E O) (ev : fevent V E O) : list O :=
  match ev with VOnNext 0 v => im_next im v | VOnComplete 0 => im_complete im | VOnError 0 e => im_error im e | VFinally 0 g => im_finally im g | _ => [] end.
Definition expected {V E O} (im : image V E O) (t : list (fevent V E O)) := flat_map (expect_of im) t.
Section Observe.
Context {V E O C St : Type}.
Notation event := (fevent V E O).
Notation item := (fitem V E O C).
Notation conf := (fconf V E O C St).
Variable im : image V E O.
Variable h0 : fhandlers V E O C.
Definition shows (os : list O) (l : list (fact V E O C)) : Prop := exists body, l = map FObs os ++ body /\ Forall silent body.
Record observes : Prop := {
  ob_next : forall f, fh_next h0 = Some f -> forall t v, shows (im_next im v) (f t v);
  ob_complete : forall f, fh_complete h0 = Some f -> forall t, shows (im_complete im) (f t);
  ob_error : forall f, fh_error h0 = Some f -> forall t e, shows (im_error im e) (f t e);
  ob_request : forall f, fh_request h0 = Some f -> forall t s, Forall silent (f t s);
  ob_finally : forall f, fh_finally h0 = Some f -> forall t g, shows (im_finally im g) (f t g) }.
Hypothesis ob : observes.
Variable wasm : bool.
Variable source : nat -> list (fact V E O C).
Variable code : C -> list event -> St -> option (St * list (fact V E O C)).
Hypothesis source_silent : forall s, Forall silent (source s).
Hypothesis code_silent : forall k t st st' l, code k t st = Some (st', l) -> Forall silent l.

Definition isil (i : item) : Prop := match i with FAct a => silent a | FFire _ fn _ => forall t g, Forall silent (fn t g) | _ => True end.
Definition sub_ok (m : fsub V E O C) : Prop :=
  (forall f, fs_request m = Some f -> forall t n, Forall silent (f t n)) /\ (forall f, fs_cancel m = Some f -> forall t, Forall silent (f t)).
Record oinv (c : conf) : Prop := {
  o_zero : exists m, nth_error (fc_subs c) 0 = Some m /\ fs_h m = h0;
  o_subs : forall s m, nth_error (fc_subs c) s = Some m -> sub_ok m /\ (s <> 0%nat -> silent_handlers (fs_h m));
  o_cb : Forall (fun cb => forall t g, Forall silent (snd cb t g)) (fc_callbacks c);
  o_th : Forall (Forall isil) (fc_threads c);
  o_stk : exists os its, fc_stack c = map (fun o => FAct (FObs o)) os ++ its /\ Forall isil its /\
          observed (fc_trace c) ++ os = expected im (fc_trace c) }.
Lemma isil_facts l : Forall silent l -> Forall isil (facts l).
Proof. induction 1; constructor; auto. Qed.
Lemma facts_obs os (l : list (fact V E O C)) : facts (map FObs os ++ l) = map (fun o => FAct (FObs o)) os ++ facts l.
Proof. unfold facts. rewrite map_app, map_map. reflexivity. Qed.
Lemma observed_app (a b : list event) : observed (a ++ b) = observed a ++ observed b. Proof. apply flat_map_app. Qed.
Lemma expected_app (a b : list event) : expected im (a ++ b) = expected im a ++ expected im b. Proof. apply flat_map_app. Qed.

(** A step from a stack without observations on top. *)
Lemma oinv_next c c' it rest ev os l new :
  oinv c -> fc_stack c = it :: rest -> Forall isil (it :: rest) ->
  (exists m, nth_error (fc_subs c') 0 = Some m /\ fs_h m = h0) ->
  (forall s m, nth_error (fc_subs c') s = Some m -> sub_ok m /\ (s <> 0%nat -> silent_handlers (fs_h m))) ->
  Forall (fun cb => forall t g, Forall silent (snd cb t g)) (fc_callbacks c') ->
  fc_threads c' = fc_threads c ++ new -> Forall (Forall isil) new ->
  fc_trace c' = fc_trace c ++ ev -> fc_stack c' = map (fun o => FAct (FObs o)) os ++ l ++ rest ->
  Forall isil l -> observed ev = [] -> expected im ev = os -> oinv c'.
Proof.
  intros [] Hk Hit Hz Hs Hcb Hth Hnew Ht Hk' Hl Ho He. constructor; auto.
  - rewrite Hth. apply Forall_app. auto.
  - destruct o_stk0 as (os0 & its0 & E0 & F0 & G0). rewrite E0 in Hk.
    assert (os0 = []) as ->.
    { destruct os0; [reflexivity|]. cbn in Hk. injection Hk as <- Hk. inversion Hit; subst. cbn in H1. inversion H1. }
    exists os, (l ++ rest). rewrite Hk', Ht, observed_app, expected_app, Ho, He, app_nil_r. rewrite app_nil_r in G0. rewrite G0.
    split; [reflexivity|]. split; [|reflexivity]. apply Forall_app. inversion Hit; subst. auto.
Qed.
Lemma sub_set (c : conf) s m m' : oinv c -> nth_error (fc_subs c) s = Some m -> fs_h m' = fs_h m -> sub_ok m' ->
  (exists m, nth_error (mset (fc_subs c) s m') 0 = Some m /\ fs_h m = h0) /\
  (forall j mj, nth_error (mset (fc_subs c) s m') j = Some mj -> sub_ok mj /\ (j <> 0%nat -> silent_handlers (fs_h mj))).
Proof.
  intros [] Hm Hh Hok. split.
  - rewrite nth_mset by (eapply nth_some_lt; eauto). destruct (Nat.eqb s 0) eqn:X; [|exact o_zero0]. apply Nat.eqb_eq in X as ->.
    destruct o_zero0 as (m0 & A & B). exists m'. split; congruence.
  - intros j mj. rewrite nth_mset by (eapply nth_some_lt; eauto). destruct (Nat.eqb s j) eqn:X; [|apply o_subs0]. apply Nat.eqb_eq in X as ->.
    intros H; injection H as <-. split; [exact Hok|]. intros Hj. rewrite Hh. now apply o_subs0 with (1 := Hm).
Qed.
Lemma h_shows (c : conf) s m : oinv c -> nth_error (fc_subs c) s = Some m ->
  (forall f, fh_next (fs_h m) = Some f -> forall t v, shows (expect_of im (VOnNext s v)) (f t v)) /\
  (forall f, fh_complete (fs_h m) = Some f -> forall t, shows (expect_of im (VOnComplete s)) (f t)) /\
  (forall f, fh_error (fs_h m) = Some f -> forall t e, shows (expect_of im (VOnError s e)) (f t e)) /\
  (forall f, fh_request (fs_h m) = Some f -> forall t j, Forall silent (f t j)) /\
  (forall f, fh_finally (fs_h m) = Some f -> forall t g, shows (expect_of im (VFinally s g)) (f t g)).
Proof.
  intros [] Hm. destruct s as [|s].
  - destruct o_zero0 as (m0 & A & B). rewrite Hm in A. injection A as <-. rewrite B. destruct ob. cbn. auto.
  - destruct (o_subs0 _ _ Hm) as [_ X]. specialize (X ltac:(discriminate)). cbn.
    assert (Z : forall l, Forall silent l -> shows [] l) by (intros l Hl; exists l; auto).
    destruct X. cbn. repeat split; intros; eauto.
Qed.
Ltac onx Ev Os L New := eapply oinv_next with (ev := Ev) (os := Os) (l := L) (new := New); eauto;
  cbn [femit fc_panicked fc_subs fc_callbacks fc_threads fc_stack fc_trace fc_store app map]; try reflexivity; try (now repeat constructor).
Lemma oinv_step c i : oinv c -> oinv (fstep wasm source code c i).
Proof.
  intros I. unfold fstep. destruct (fc_panicked c) eqn:Hpan; [exact I|]. destruct (fc_stack c) as [|it rest] eqn:Hk.
  { destruct (nth_error (fc_threads c) i) as [th|] eqn:Et; [|exact I]. destruct I. constructor; auto.
    - cbn [fc_threads]. apply Forall_app. split; apply Forall_forall; intros x Hx; apply (proj1 (Forall_forall _ _) o_th0);
        [eapply in_firstn|eapply in_skipn]; eauto.
    - destruct o_stk0 as (os0 & its0 & E0 & F0 & G0). rewrite E0 in Hk. apply app_eq_nil in Hk as [Hk _]. apply map_eq_nil in Hk as ->.
      exists [], th. cbn [fc_stack fc_trace map app]. split; [reflexivity|]. split; [|exact G0].
      apply (proj1 (Forall_forall _ _) o_th0). eapply nth_error_In; eauto. }
  destruct (o_stk _ I) as (os & its & E0 & F0 & G0). rewrite Hk in E0. destruct os as [|o os].
  2:{ cbn in E0. injection E0 as -> ->. destruct I. cbn [do_fitem]. constructor; cbn [femit fc_subs fc_callbacks fc_threads fc_stack fc_trace]; rewrite ?app_nil_r; auto.
      exists os, its. repeat split; auto. rewrite observed_app, expected_app. cbn. rewrite app_nil_r, <- app_assoc. exact G0. }
  cbn in E0. subst its. assert (Fr := Forall_inv_tail F0). pose proof (Forall_inv F0) as Fi.
  pose proof I as I0. destruct I0 as [Iz Is Icb Ith Istk].
  destruct it as [[s k|s rq cn|s n|h'|id fn|o|k]|s|s|s g|s g|id fn g|s n|s]; cbn [do_fitem].
  - unfold do_fcall. destruct (nth_error (fc_subs c) s) as [m|] eqn:Em; [|onx (@nil event) (@nil O) (@nil item) (@nil (list item))].
    destruct (h_shows c s m I Em) as (Sn & Sc & Se & _ & _). destruct (Is s m Em) as [Sok _].
    assert (Set_ : forall m', fs_h m' = fs_h m -> fs_request m' = fs_request m -> fs_cancel m' = fs_cancel m ->
       (exists m, nth_error (mset (fc_subs c) s m') 0 = Some m /\ fs_h m = h0) /\
       (forall j mj, nth_error (mset (fc_subs c) s m') j = Some mj -> sub_ok mj /\ (j <> 0%nat -> silent_handlers (fs_h mj)))).
    { intros m' A B D. eapply sub_set; eauto. unfold sub_ok. rewrite B, D. exact Sok. }
    destruct (Set_ (set_n wasm m (fs_n m - 1)) eq_refl eq_refl eq_refl) as [N1 N2].
    destruct (Set_ (set_closed m (fs_err m)) eq_refl eq_refl eq_refl) as [C1 C2].
    destruct k as [v| |e|].
    + destruct (fs_closed m); [onx [VCalled s (KNext v) : event] (@nil O) (@nil item) (@nil (list item))|].
      destruct (fh_next (fs_h m)) as [f|] eqn:Hf.
      * destruct (Sn f eq_refl (fc_trace c ++ [VCalled s (KNext v); VOnNext s v]) v) as (body & -> & Hb).
        onx [VCalled s (KNext v) : event; VOnNext s v] (expect_of im (VOnNext s v : event)) (facts body ++ [FAfterNext s]) (@nil (list item)).
        -- now rewrite facts_obs, <- !app_assoc.
        -- apply Forall_app. split; [now apply isil_facts|now repeat constructor].
        -- cbn [expected flat_map]. unfold expected. cbn [flat_map]. apply app_nil_r.
      * onx [VCalled s (KNext v) : event] (@nil O) [FAfterNext s : item] (@nil (list item)).
    + destruct (fs_closed m); [onx [VCalled s KComplete : event] (@nil O) (@nil item) (@nil (list item))|].
      destruct (fh_complete (fs_h m)) as [f|] eqn:Hf.
      * destruct (Sc f eq_refl (fc_trace c ++ [VCalled s KComplete; VOnComplete s])) as (body & -> & Hb).
        onx [VCalled s KComplete : event; VOnComplete s] (expect_of im (VOnComplete s : event)) (facts body ++ [FFinal s SigComplete]) (@nil (list item)).
        -- now rewrite facts_obs, <- !app_assoc.
        -- apply Forall_app. split; [now apply isil_facts|now repeat constructor].
        -- unfold expected. cbn [flat_map]. apply app_nil_r.
      * onx [VCalled s KComplete : event] (@nil O) [FFinal s SigComplete : item] (@nil (list item)).
    + destruct (Set_ (set_closed m (Some e)) eq_refl eq_refl eq_refl) as [D1 D2].
      destruct (fs_closed m); [onx [VCalled s (KError e) : event] (@nil O) (@nil item) (@nil (list item))|].
      destruct (fh_error (fs_h m)) as [f|] eqn:Hf.
      * destruct (Se f eq_refl (fc_trace c ++ [VCalled s (KError e); VOnError s e]) e) as (body & -> & Hb).
        onx [VCalled s (KError e) : event; VOnError s e] (expect_of im (VOnError s e : event)) (facts body ++ [FFinal s SigError]) (@nil (list item)).
        -- now rewrite facts_obs, <- !app_assoc.
        -- apply Forall_app. split; [now apply isil_facts|now repeat constructor].
        -- unfold expected. cbn [flat_map]. apply app_nil_r.
      * onx [VCalled s (KError e) : event] (@nil O) [FFinal s SigError : item] (@nil (list item)).
    + destruct (fs_cancel m) as [f|] eqn:Hf.
      * onx [VCalled s KCancel : event; VSrcCancel s] (@nil O) (facts (f (fc_trace c ++ [VCalled s KCancel; VSrcCancel s])) ++ [FCancelFin s]) (@nil (list item)).
        -- now rewrite <- app_assoc.
        -- apply Forall_app. split; [|now repeat constructor]. apply isil_facts. now apply Sok.
      * onx [VCalled s KCancel : event] (@nil O) [FCancelFin s : item] (@nil (list item)).
  - unfold do_onsubscribe. destruct (nth_error (fc_subs c) s) as [m|] eqn:Em; [|onx (@nil event) (@nil O) (@nil item) (@nil (list item))].
    destruct (fs_closed m) eqn:Cl; [onx (@nil event) (@nil O) (@nil item) (@nil (list item))|].
    match goal with |- context [mset _ _ ?m'] => destruct (sub_set c s m m' I Em eq_refl) as [N1 N2] end.
    { inversion Fi; subst. split; assumption. }
    destruct (fs_n m >? 0)%Z; [destruct wasm|].
    + onx [VSubscribed s (if cn then true else false) : event] (@nil O) [FReq s (fs_n m) : item] (@nil (list item)).
    + onx [VSubscribed s (if cn then true else false) : event] (@nil O) (@nil item) [[FReq s (fs_n m) : item]].
    + onx [VSubscribed s (if cn then true else false) : event] (@nil O) (@nil item) (@nil (list item)).
  - unfold do_request. destruct (nth_error (fc_subs c) s) as [m|] eqn:Em; [|onx (@nil event) (@nil O) (@nil item) (@nil (list item))].
    destruct (sub_set c s m (set_n wasm m (fs_n m + n)) I Em eq_refl) as [N1 N2]; [apply (Is s m Em)|].
    destruct (fs_request m); [destruct wasm|].
    + onx [VDemand s n : event] (@nil O) [FReq s n : item] (@nil (list item)).
    + onx [VDemand s n : event] (@nil O) (@nil item) [[FReq s n : item]].
    + onx [VDemand s n : event] (@nil O) (@nil item) (@nil (list item)).
  - onx (@nil event) (@nil O) (facts (source (List.length (fc_subs c))) ++ [FHandle (List.length (fc_subs c))]) (@nil (list item)).
    + destruct Iz as (m0 & A & B). exists m0. split; [|exact B]. rewrite nth_error_app1; [exact A|eapply nth_some_lt; eauto].
    + intros s m Hs. destruct (Nat.lt_ge_cases s (List.length (fc_subs c))).
      * rewrite nth_error_app1 in Hs by assumption. auto.
      * rewrite nth_error_app2 in Hs by assumption. destruct (s - List.length (fc_subs c))%nat as [|j]; cbn in Hs; [|now rewrite nth_nil in Hs].
        injection Hs as <-. split; [split; intros ? HH; discriminate HH|]. intros _. cbn. now inversion Fi.
    + now rewrite app_nil_r.
    + now rewrite app_nil_r.
    + now rewrite <- app_assoc.
    + apply Forall_app. split; [now apply isil_facts|now repeat constructor].
  - assert (Pf : forall t g, Forall silent (fn t g)) by now inversion Fi.
    unfold do_fnotify. destruct (match fc_cur c with Some _ => _ | None => _ end) as [m0|]; [destruct (fs_closed m0)|].
    + onx [VRegistered id : event] (@nil O) [FFire id fn (fs_signal m0) : item] (@nil (list item)).
    + onx [VRegistered id : event] (@nil O) (@nil item) (@nil (list item)); [apply Forall_app; auto|now rewrite app_nil_r].
    + onx [VRegistered id : event] (@nil O) (@nil item) (@nil (list item)); [apply Forall_app; auto|now rewrite app_nil_r].
  - inversion Fi.
  - destruct (code k (fc_trace c) (fc_store c)) as [[st l]|] eqn:Ec.
    + onx (@nil event) (@nil O) (facts l) (@nil (list item)); [now rewrite app_nil_r..|]. apply isil_facts. eauto.
    + destruct I. constructor; auto.
  - destruct (nth_error (fc_subs c) s) as [m0|].
    + destruct (fs_n m0 =? 0)%Z.
      * onx (@nil event) (@nil O) [FHandle s : item] (@nil (list item)).
      * onx (@nil event) (@nil O) (@nil item) (@nil (list item)).
    + onx (@nil event) (@nil O) (@nil item) (@nil (list item)).
  - unfold do_handle. destruct (nth_error (fc_subs c) s) as [m|] eqn:Em; [|onx (@nil event) (@nil O) (@nil item) (@nil (list item))].
    destruct (h_shows c s m I Em) as (_ & _ & _ & Sr & _).
    destruct (fh_norequest (fs_h m)); [onx (@nil event) (@nil O) (@nil item) (@nil (list item))|].
    destruct (fh_request (fs_h m)) as [f|] eqn:Hf.
    + onx [VOnRequest s : event] (@nil O) (facts (f (fc_trace c ++ [VOnRequest s]) s)) (@nil (list item)). apply isil_facts. auto.
    + onx (@nil event) (@nil O) [FAct (FRequest s 2147483647) : item] (@nil (list item)).
  - unfold do_ffinal. destruct (nth_error (fc_subs c) s) as [m|] eqn:Em; [|onx (@nil event) (@nil O) (@nil item) (@nil (list item))].
    destruct (h_shows c s m I Em) as (_ & _ & _ & _ & Sf).
    match goal with |- context [mset _ _ ?m'] => destruct (sub_set c s m m' I Em eq_refl (proj1 (Is s m Em))) as [N1 N2] end.
    destruct (fh_finally (fs_h m)) as [f|] eqn:Hf.
    + destruct (Sf f eq_refl (fc_trace c ++ [VSignal s g; VFinally s g]) g) as (body & -> & Hb).
      onx [VSignal s g : event; VFinally s g] (expect_of im (VFinally s g : event)) (facts body ++ [FLoop s g]) (@nil (list item)).
      * now rewrite facts_obs, <- !app_assoc.
      * apply Forall_app. split; [now apply isil_facts|now repeat constructor].
      * unfold expected. cbn [flat_map]. apply app_nil_r.
    + onx [VSignal s g : event] (@nil O) [FLoop s g : item] (@nil (list item)).
  - onx (@nil event) (@nil O) (map (fun cb => FFire (fst cb) (snd cb) g : item) (fc_callbacks c)) (@nil (list item)).
    clear - Icb. induction Icb; constructor; auto.
  - onx [VFired id g : event] (@nil O) (facts (fn (fc_trace c ++ [VFired id g]) g)) (@nil (list item)). apply isil_facts. apply Fi.
  - unfold do_req. destruct (nth_error (fc_subs c) s) as [m|] eqn:Em; [|onx (@nil event) (@nil O) (@nil item) (@nil (list item))].
    destruct (fs_request m) as [f|] eqn:Hf.
    + onx [VSrcRequest s n : event] (@nil O) (facts (f (fc_trace c ++ [VSrcRequest s n]) n)) (@nil (list item)). apply isil_facts. now apply (Is s m Em).
    + destruct I. constructor; auto.
  - unfold do_cancelfin. destruct (nth_error (fc_subs c) s) as [m|] eqn:Em; [|onx (@nil event) (@nil O) (@nil item) (@nil (list item))].
    destruct (h_shows c s m I Em) as (_ & _ & _ & _ & Sf).
    destruct (fh_finally (fs_h m)) as [f|] eqn:Hf; [|onx (@nil event) (@nil O) (@nil item) (@nil (list item))].
    destruct (Sf f eq_refl (fc_trace c ++ [VFinally s SigCancel]) SigCancel) as (body & -> & Hb).
    onx [VFinally s SigCancel : event] (expect_of im (VFinally s SigCancel : event)) (facts body) (@nil (list item)).
    + now rewrite facts_obs, <- !app_assoc.
    + now apply isil_facts.
    + unfold expected. cbn [flat_map]. apply app_nil_r.
Qed.
Lemma oinv_run sched c : oinv c -> oinv (frun wasm source code sched c).
Proof. revert c. induction sched; intros c I; [exact I|]. cbn. apply IHsched. now apply oinv_step. Qed.
Lemma oinv_init st threads : Forall (Forall silent) threads ->
  oinv (frun wasm source code [0; 0]%nat (finit st ([FSubscribe h0] :: threads))).
Proof.
  intros Hth. cbn. constructor; cbn [fc_subs fc_callbacks fc_threads fc_stack fc_trace].
  - eexists. split; reflexivity.
  - intros [|s] m Hm; [|cbn in Hm; now rewrite nth_nil in Hm]. injection Hm as <-. split; [split; intros ? HH; discriminate HH|congruence].
  - constructor.
  - induction Hth; constructor; auto. now apply isil_facts.
  - exists [], (facts (source 0) ++ [FHandle 0]). split; [reflexivity|]. split; [|reflexivity].
    apply Forall_app. split; [now apply isil_facts|now repeat constructor].
Qed.
(** Between callbacks, exactly the image of the events has been observed. *)
Lemma flux_observed st threads sched : Forall (Forall silent) threads ->
  let c := frun wasm source code (0 :: 0 :: sched)%nat (finit st ([FSubscribe h0] :: threads)) in
  (exists m, nth_error (fc_subs c) 0 = Some m /\ fs_h m = h0) /\ (fc_stack c = [] -> observed (fc_trace c) = expected im (fc_trace c)).
Proof.
  intros Hth c. assert (I : oinv c).
  { unfold c. change (0 :: 0 :: sched)%nat with ([0; 0] ++ sched)%nat. unfold frun. rewrite fold_left_app. apply oinv_run. now apply oinv_init. }
  split; [apply I|]. intros Hk. destruct I as [_ _ _ _ (os & its & E0 & _ & G0)]. rewrite Hk in E0. symmetry in E0. apply app_eq_nil in E0 as [E0 _]. apply map_eq_nil in E0 as ->.
  now rewrite app_nil_r in G0.
Qed.
End Observe.

(** ** C54 *)
Definition has {A} (o : option A) : bool := if o then true else false.
(** What the subscriber of the mapped flux should be shown for each event at the
    source. *)
Definition map_image {V E D} (tx : V -> D + E) (next error fin : bool) : image V E (fobs D E) :=
  {| im_next := fun v => match tx v with
                         | inl d => if next then [ONext d] else []
                         | inr e => (if error then [OError e] else []) ++ (if fin then [OFinally SigError] else [])
                         end;
     im_complete := [OComplete]; im_error := fun e => [OError e]; im_finally := fun g => [OFinally g] |}.
Definition mapped_run {V E D C St} wasm source code (st : St) (tx : V -> D + E) dn dc de dr df nr (threads : list (list (fdact V E D C))) sched : fconf V E (fobs D E) C St :=
  frun wasm source code (0 :: 0 :: sched)%nat (finit st ([FSubscribe (fmap_handlers tx dn dc de dr df nr)] :: threads)).
Section Mapped.
Context {V E D C St : Type}.
Notation act := (fdact V E D C).
Variable wasm : bool.
Variable source : nat -> list act.
Variable code : C -> list (fdev V E D) -> St -> option (St * list act).
Variable tx : V -> D + E.
Variable dn : option (list (fdev V E D) -> D -> list act).
Variable dc : option (list (fdev V E D) -> list act).
Variable de : option (list (fdev V E D) -> E -> list act).
Variable dr : option (list (fdev V E D) -> nat -> list act).
Variable df : option (list (fdev V E D) -> signal -> list act).
(** The callbacks of the mapped subscriber and everybody else may do anything
    except record observations themselves; the error callback does nothing
    when the mapping fails (otherwise what it does comes before Finally). *)
Record quiet_world : Prop := {
  w_source : forall s, Forall silent (source s);
  w_code : forall k t st st' l, code k t st = Some (st', l) -> Forall silent l;
  w_next : forall f, dn = Some f -> forall t v, Forall silent (f t v);
  w_complete : forall f, dc = Some f -> forall t, Forall silent (f t);
  w_error : forall f, de = Some f -> forall t e, Forall silent (f t e);
  w_error0 : forall f, de = Some f -> forall t v e, tx v = inr e -> f t e = [];
  w_request : forall f, dr = Some f -> forall t s, Forall silent (f t s);
  w_finally : forall f, df = Some f -> forall t g, Forall silent (f t g) }.
Lemma map_observes nr : quiet_world -> observes (map_image tx (has dn) (has de) (has df)) (fmap_handlers tx dn dc de dr df nr).
Proof.
  intros []. constructor; cbn.
  - intros f Hf t v. injection Hf as <-. destruct (tx v) as [d|e] eqn:Et.
    + destruct dn as [f|]; cbn; [|exists []; auto]. exists (f t d). split; [reflexivity|eauto].
    + destruct de as [f|]; destruct df as [f'|]; cbn; rewrite ?(w_error2 _ eq_refl t v e Et); cbn.
      * exists (f' t SigError). split; [reflexivity|eauto].
      * exists []. auto.
      * exists (f' t SigError). split; [reflexivity|eauto].
      * exists []. auto.
  - destruct dc as [g|]; intros f Hf t; [injection Hf as <-|discriminate]. exists (g t). split; [reflexivity|eauto].
  - destruct de as [g|]; intros f Hf t e; [injection Hf as <-|discriminate]. exists (g t e). split; [reflexivity|eauto].
  - eauto.
  - destruct df as [g|]; intros f Hf t e; [injection Hf as <-|discriminate]. exists (g t e). split; [reflexivity|eauto].
Qed.
End Mapped.
(** Between callbacks, the subscriber of the mapped flux has been shown exactly
    the image of the events at the source, in their order. *)
Theorem C54_mapped_events :
  forall V E D C St wasm source code (st : St) (tx : V -> D + E) dn dc de dr df nr threads sched,
    quiet_world source code tx dn dc de dr df -> Forall (Forall silent) threads ->
    let c : fconf V E (fobs D E) C St := mapped_run wasm source code st tx dn dc de dr df nr threads sched in
    fc_stack c = [] -> observed (fc_trace c) = expected (map_image tx (has dn) (has de) (has df)) (fc_trace c).
Proof.
  intros V E D C St wasm source code st tx dn dc de dr df nr threads sched Hw Hth c Hk.
  pose proof (map_observes _ _ tx dn dc de dr df nr Hw) as Ob.
  destruct Hw. apply (flux_observed _ _ Ob); auto.
Qed.
(** With a mapping that never fails, a subscriber with all callbacks sees the
    source's values mapped, its completion or error, and its Finally. *)
Definition is_final {D E} (o : fobs D E) : bool := match o with OFinally _ => true | _ => false end.
Definition lift {V E D} (g : V -> D) (o : fobs V E) : fobs D E :=
  match o with ONext v => ONext (g v) | OComplete => OComplete | OError e => OError e | OFinally s => OFinally s end.
Theorem C54_total_map :
  forall V E D C St wasm source code (st : St) (g : V -> D) fn dc de dr ff nr threads sched,
    let tx := fun v => inl (g v) : D + E in
    quiet_world source code tx (Some fn) dc de dr (Some ff) -> Forall (Forall silent) threads ->
    let c : fconf V E (fobs D E) C St := mapped_run wasm source code st tx (Some fn) dc de dr (Some ff) nr threads sched in
    fc_stack c = [] ->
    filter (fun o => negb (is_final o)) (observed (fc_trace c)) = map (lift g) (delivered 0 (fc_trace c)) /\
    filter is_final (observed (fc_trace c)) = map OFinally (ffinals 0 (fc_trace c)).
Proof.
  intros V E D C St wasm source code st g fn dc de dr ff nr threads sched tx Hw Hth c Hk.
  unfold c. rewrite C54_mapped_events by assumption. fold c. unfold expected, delivered, ffinals. clear. 
  induction (fc_trace c) as [|ev t [IH1 IH2]]; [auto|]. cbn [flat_map]. rewrite !filter_app, !map_app, IH1, IH2. split; f_equal; clear.
  - destruct ev as [| [|s] v|[|s]|[|s] e| |[|s] g'| | | | | | | |]; reflexivity.
  - destruct ev as [| [|s] v|[|s]|[|s] e| |[|s] g'| | | | | | | |]; reflexivity.
Qed.
(** A mapping that fails does not stop anything: after the error the subscriber
    still gets values, a completion and a second Finally. *)
Theorem C54_mapping_error_terminates_refuted :
  exists sched, let c := mapped_run true (fun _ => []) fnocode tt (fun v : N => if v =? 2 then inr 7 else inl (v + 10))
                          (Some (fun _ _ => [])) (Some (fun _ => [])) (Some (fun _ _ => [])) None (Some (fun _ _ => [])) false
                          [[FCall 0 (KNext 1); FCall 0 (KNext 2); FCall 0 (KNext 3); FCall 0 KComplete]] sched in
    fc_stack c = [] /\ observed (fc_trace c) = [ONext 11; OError 7; OFinally SigError; ONext 13; OComplete; OFinally SigComplete].
Proof. exists (repeat 0%nat 40). vm_compute. auto. Qed.
Example C54_example :
  let c := mapped_run false (fun s => [FOnSubscribe s (Some (fun _ n => [FCall s (KNext (Z.to_N n))])) None]) fnocode tt (fun v : N => inl (v + 10) : N + N)
             (Some (fun t _ => if (5 <? List.length t)%nat then [FCall 0 (KError 4)] else [FRequest 0 5])) None (Some (fun _ _ => [FCall 0 (KNext 3)])) (Some (fun _ s => [FRequest s 1])) (Some (fun _ _ => [])) false
             [[FCall 0 (KNext 8)]] (repeat 0%nat 60) in
  fc_stack c = [] /\ observed (fc_trace c) = [ONext 18; ONext 11; OError 4; OFinally SigError] /\ delivered 0 (fc_trace c) = [ONext 8; ONext 1; OError 4].
Proof. vm_compute. auto. Qed.
Print Assumptions C54_mapped_events.
Print Assumptions C54_total_map.
Print Assumptions C54_mapping_error_terminates_refuted.
