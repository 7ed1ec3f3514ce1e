(** What the callbacks of the first subscription of a mono cause outside of the
    package: the image of the outcomes, in order. *)
From Verif Require Import Base MonoModel MonoFacts MonoProps.

Record mimage (V E O : Type) := { mi_success : V -> list O; mi_error : E -> list O; mi_finally : signal -> list O }.
Arguments mi_success {V E O}. Arguments mi_error {V E O}. Arguments mi_finally {V E O}.
Definition mexpect_of {V E O} (im : mimage V E O) (ev : mevent V E O) : list O :=
  match ev with EOnSuccess 0 v => mi_success im v | EOnError 0 e => mi_error im e | EFinally 0 g => mi_finally im g | _ => [] end.
Definition mexpected {V E O} (im : mimage V E O) (t : list (mevent V E O)) := flat_map (mexpect_of im) t.
Section Observe.
Context {V E O C St : Type}.
Notation event := (mevent V E O).
Notation item := (mitem V E O C).
Notation conf := (mconf V E O C St).
Variable im : mimage V E O.
Variable h0 : handlers V E O C.
Definition mshows (os : list O) (l : list (mact V E O C)) : Prop := exists body, l = map AObs os ++ body /\ Forall silent body.
Record mobserves : Prop := {
  mo_success : forall f, h_success h0 = Some f -> forall t v, mshows (mi_success im v) (f t v);
  mo_error : forall f, h_error h0 = Some f -> forall t e, mshows (mi_error im e) (f t e);
  mo_finally : forall f, h_finally h0 = Some f -> forall t g, mshows (mi_finally im g) (f t g) }.
Hypothesis ob : mobserves.
Variable source : nat -> list (mact V E O C).
Variable code : C -> list event -> St -> option (St * list (mact V E O C)).
Hypothesis source_silent : forall s, Forall silent (source s).
Hypothesis code_silent : forall k t st st' l, code k t st = Some (st', l) -> Forall silent l.

Definition misil (i : item) : Prop := match i with IAct a => silent a | IFire _ fn _ => forall t g, Forall silent (fn t g) | _ => True end.
Record moinv (c : conf) : Prop := {
  mo_zero : exists m, nth_error (mc_subs c) 0 = Some m /\ ms_h m = h0;
  mo_subs : forall s m, nth_error (mc_subs c) s = Some m -> s <> 0%nat -> silent_handlers (ms_h m);
  mo_cb : Forall (fun cb => forall t g, Forall silent (snd cb t g)) (mc_callbacks c);
  mo_th : Forall (Forall silent) (mc_threads c);
  mo_stk : exists os its, mc_stack c = map (fun o => IAct (AObs o)) os ++ its /\ Forall misil its /\
          observed (mc_trace c) ++ os = mexpected im (mc_trace c) }.
Lemma misil_acts l : Forall silent l -> Forall misil (acts l).
Proof. induction 1; constructor; auto. Qed.
Lemma acts_obs os (l : list (mact V E O C)) : acts (map AObs os ++ l) = map (fun o => IAct (AObs o)) os ++ acts l.
Proof. unfold acts. rewrite map_app, map_map. reflexivity. Qed.
Lemma mobserved_app (a b : list event) : observed (a ++ b) = observed a ++ observed b. Proof. apply flat_map_app. Qed.
Lemma mexpected_app (a b : list event) : mexpected im (a ++ b) = mexpected im a ++ mexpected im b. Proof. apply flat_map_app. Qed.
Lemma moinv_next c c' it rest ev os l :
  moinv c -> mc_stack c = it :: rest -> Forall misil (it :: rest) ->
  (exists m, nth_error (mc_subs c') 0 = Some m /\ ms_h m = h0) ->
  (forall s m, nth_error (mc_subs c') s = Some m -> s <> 0%nat -> silent_handlers (ms_h m)) ->
  Forall (fun cb => forall t g, Forall silent (snd cb t g)) (mc_callbacks c') ->
  mc_threads c' = mc_threads c ->
  mc_trace c' = mc_trace c ++ ev -> mc_stack c' = map (fun o => IAct (AObs o)) os ++ l ++ rest ->
  Forall misil l -> observed ev = [] -> mexpected im ev = os -> moinv c'.
Proof.
  intros [] Hk Hit Hz Hs Hcb Hth Ht Hk' Hl Ho He. constructor; auto.
  - now rewrite Hth.
  - destruct mo_stk0 as (os0 & its0 & E0 & F0 & G0). rewrite E0 in Hk.
    assert (os0 = []) as ->.
    { destruct os0; [reflexivity|]. cbn in Hk. injection Hk as <- Hk. inversion Hit; subst. cbn in H1. inversion H1. }
    exists os, (l ++ rest). rewrite Hk', Ht, mobserved_app, mexpected_app, Ho, He, app_nil_r. rewrite app_nil_r in G0. rewrite G0.
    split; [reflexivity|]. split; [|reflexivity]. apply Forall_app. inversion Hit; subst. auto.
Qed.
Lemma msub_set (c : conf) s m m' : moinv c -> nth_error (mc_subs c) s = Some m -> ms_h m' = ms_h m ->
  (exists m, nth_error (mset (mc_subs c) s m') 0 = Some m /\ ms_h m = h0) /\
  (forall j mj, nth_error (mset (mc_subs c) s m') j = Some mj -> j <> 0%nat -> silent_handlers (ms_h mj)).
Proof.
  intros [] Hm Hh. split.
  - rewrite nth_mset by (eapply nth_some_lt; eauto). destruct (Nat.eqb s 0) eqn:X; [|exact mo_zero0]. apply Nat.eqb_eq in X as ->.
    destruct mo_zero0 as (m0 & A & B). exists m'. split; congruence.
  - intros j mj. rewrite nth_mset by (eapply nth_some_lt; eauto). destruct (Nat.eqb s j) eqn:X; [|apply mo_subs0]. apply Nat.eqb_eq in X as ->.
    intros H; injection H as <-. intros Hj. rewrite Hh. now apply mo_subs0 with (1 := Hm).
Qed.
Lemma mh_shows (c : conf) s m : moinv c -> nth_error (mc_subs c) s = Some m ->
  (forall f, h_success (ms_h m) = Some f -> forall t v, mshows (mexpect_of im (EOnSuccess s v)) (f t v)) /\
  (forall f, h_error (ms_h m) = Some f -> forall t e, mshows (mexpect_of im (EOnError s e)) (f t e)) /\
  (forall f, h_finally (ms_h m) = Some f -> forall t g, mshows (mexpect_of im (EFinally s g)) (f t g)).
Proof.
  intros [] Hm. destruct s as [|s].
  - destruct mo_zero0 as (m0 & A & B). rewrite Hm in A. injection A as <-. rewrite B. destruct ob. cbn. auto.
  - specialize (mo_subs0 _ _ Hm ltac:(discriminate)). cbn.
    assert (Z : forall l, Forall silent l -> mshows [] l) by (intros l Hl; exists l; auto).
    destruct mo_subs0. cbn. repeat split; intros; apply Z; apply Forall_forall; eauto.
Qed.
Ltac onx Ev Os L := eapply moinv_next with (ev := Ev) (os := Os) (l := L); eauto;
  cbn [emit mc_panicked mc_subs mc_callbacks mc_threads mc_stack mc_trace mc_store app map]; try reflexivity; try (now repeat constructor).
Lemma moinv_step c i : moinv c -> moinv (mstep source code c i).
Proof.
  intros I. unfold mstep. destruct (mc_panicked c) eqn:Hpan; [exact I|]. destruct (mc_stack c) as [|it rest] eqn:Hk.
  { destruct (nth_error (mc_threads c) i) as [th|] eqn:Et; [|exact I]. destruct I. constructor; auto.
    - cbn [mc_threads]. apply Forall_app. split; apply Forall_forall; intros x Hx; apply (proj1 (Forall_forall _ _) mo_th0);
        [eapply in_firstn|eapply in_skipn]; eauto.
    - destruct mo_stk0 as (os0 & its0 & E0 & F0 & G0). rewrite E0 in Hk. apply app_eq_nil in Hk as [Hk _]. apply map_eq_nil in Hk as ->.
      exists [], (acts th). cbn [mc_stack mc_trace map app]. split; [reflexivity|]. split; [|exact G0].
      apply misil_acts. apply (proj1 (Forall_forall _ _) mo_th0). eapply nth_error_In; eauto. }
  destruct (mo_stk _ I) as (os & its & E0 & F0 & G0). rewrite Hk in E0. destruct os as [|o os].
  2:{ cbn in E0. injection E0 as -> ->. destruct I. cbn [do_item]. constructor; cbn [emit mc_subs mc_callbacks mc_threads mc_stack mc_trace]; auto.
      exists os, its. repeat split; auto. rewrite mobserved_app, mexpected_app. cbn. rewrite app_nil_r, <- app_assoc. exact G0. }
  cbn in E0. subst its. assert (Fr := Forall_inv_tail F0). pose proof (Forall_inv F0) as Fi.
  pose proof I as I0. destruct I0 as [Iz Is Icb Ith Istk].
  destruct it as [[s k|h'|id fn| |o|k]|s g|s g|id fn g]; cbn [do_item].
  - unfold do_call. destruct (nth_error (mc_subs c) s) as [m|] eqn:Em; [|onx (@nil event) (@nil O) (@nil item); now rewrite app_nil_r].
    destruct (mh_shows c s m I Em) as (Ss & Se & _).
    destruct (ms_closed m); [onx [ECalled s k : event] (@nil O) (@nil item)|].
    destruct k as [v|e|];
      match goal with |- context [mset _ _ ?m'] => destruct (msub_set c s m m' I Em eq_refl) as [N1 N2] end.
    + destruct (h_success (ms_h m)) as [f|] eqn:Hf.
      * destruct (Ss f eq_refl (mc_trace c ++ [ECalled s (CSuccess v); EOnSuccess s v]) v) as (body & -> & Hb).
        onx [ECalled s (CSuccess v) : event; EOnSuccess s v] (mexpect_of im (EOnSuccess s v : event)) (acts body ++ [IFinally s SigComplete]).
        -- now rewrite acts_obs, <- !app_assoc.
        -- apply Forall_app. split; [now apply misil_acts|now repeat constructor].
        -- unfold mexpected. cbn [flat_map]. apply app_nil_r.
      * onx [ECalled s (CSuccess v) : event] (@nil O) [IFinally s SigComplete : item].
    + destruct (h_error (ms_h m)) as [f|] eqn:Hf.
      * destruct (Se f eq_refl (mc_trace c ++ [ECalled s (CError e); EOnError s e]) e) as (body & -> & Hb).
        onx [ECalled s (CError e) : event; EOnError s e] (mexpect_of im (EOnError s e : event)) (acts body ++ [IFinally s SigError]).
        -- now rewrite acts_obs, <- !app_assoc.
        -- apply Forall_app. split; [now apply misil_acts|now repeat constructor].
        -- unfold mexpected. cbn [flat_map]. apply app_nil_r.
      * onx [ECalled s (CError e) : event] (@nil O) [IFinally s SigError : item].
    + onx [ECalled s CCancel : event] (@nil O) [IFinally s SigCancel : item].
  - onx (@nil event) (@nil O) (acts (source (List.length (mc_subs c)))).
    + destruct Iz as (m0 & A & B). exists m0. split; [|exact B]. rewrite nth_error_app1; [exact A|eapply nth_some_lt; eauto].
    + intros s m Hs. destruct (Nat.lt_ge_cases s (List.length (mc_subs c))).
      * rewrite nth_error_app1 in Hs by assumption. eauto.
      * rewrite nth_error_app2 in Hs by assumption. destruct (s - List.length (mc_subs c))%nat as [|j]; cbn in Hs; [|now rewrite nth_nil in Hs].
        injection Hs as <-. intros _. cbn. now inversion Fi.
    + now rewrite app_nil_r.
    + now apply misil_acts.
  - assert (Pf : forall t g, Forall silent (fn t g)) by (inversion Fi; subst; intros; apply Forall_forall; eauto).
    unfold do_notify. destruct (match mc_cur c with Some _ => _ | None => _ end) as [m0|]; [destruct (ms_closed m0)|].
    + onx [ERegistered id : event] (@nil O) [IFire id fn (ms_signal m0) : item].
    + onx [ERegistered id : event] (@nil O) (@nil item); apply Forall_app; auto.
    + onx [ERegistered id : event] (@nil O) (@nil item); apply Forall_app; auto.
  - destruct (match mc_cur c with Some _ => _ | None => _ end) as [m0|]; [destruct (ms_closed m0)|].
    + onx [EGot (ms_value m0) (ms_err m0) : event] (@nil O) (@nil item).
    + destruct I. constructor; auto.
    + destruct I. constructor; auto.
  - inversion Fi.
  - destruct (code k (mc_trace c) (mc_store c)) as [[st l]|] eqn:Ec.
    + onx (@nil event) (@nil O) (acts l); [now rewrite app_nil_r|]. apply misil_acts. eauto.
    + destruct I. constructor; auto.
  - unfold do_finally. destruct (nth_error (mc_subs c) s) as [m|] eqn:Em; [|onx (@nil event) (@nil O) (@nil item); now rewrite app_nil_r].
    destruct (mh_shows c s m I Em) as (_ & _ & Sf).
    match goal with |- context [mset _ _ ?m'] => destruct (msub_set c s m m' I Em eq_refl) as [N1 N2] end.
    destruct (h_finally (ms_h m)) as [f|] eqn:Hf.
    + destruct (Sf f eq_refl (mc_trace c ++ [ESignal s g; EFinally s g]) g) as (body & -> & Hb).
      onx [ESignal s g : event; EFinally s g] (mexpect_of im (EFinally s g : event)) (acts body ++ [ILoop s g]).
      * now rewrite acts_obs, <- !app_assoc.
      * apply Forall_app. split; [now apply misil_acts|now repeat constructor].
      * unfold mexpected. cbn [flat_map]. apply app_nil_r.
    + onx [ESignal s g : event] (@nil O) [ILoop s g : item].
  - onx (@nil event) (@nil O) (map (fun cb => IFire (fst cb) (snd cb) g : item) (mc_callbacks c)).
    clear - Icb. induction Icb; constructor; auto.
  - onx [EFired id g : event] (@nil O) (acts (fn (mc_trace c ++ [EFired id g]) g)). apply misil_acts. apply Fi.
Qed.
Lemma moinv_run sched c : moinv c -> moinv (mrun source code sched c).
Proof. revert c. induction sched; intros c I; [exact I|]. cbn. apply IHsched. now apply moinv_step. Qed.
Lemma moinv_init st threads : Forall (Forall silent) threads ->
  moinv (mrun source code [0; 0]%nat (minit st ([ASubscribe h0] :: threads))).
Proof.
  intros Hth. cbn. constructor; cbn [mc_subs mc_callbacks mc_threads mc_stack mc_trace].
  - eexists. split; reflexivity.
  - intros [|s] m Hm; [congruence|cbn in Hm; now rewrite nth_nil in Hm].
  - constructor.
  - assumption.
  - exists [], (acts (source 0)). rewrite app_nil_r. split; [reflexivity|]. split; [|reflexivity]. now apply misil_acts.
Qed.
(** Between callbacks, exactly the image of the outcomes has been observed. *)
Lemma mono_observed st threads sched : Forall (Forall silent) threads ->
  let c := mrun source code (0 :: 0 :: sched)%nat (minit st ([ASubscribe h0] :: threads)) in
  (exists m, nth_error (mc_subs c) 0 = Some m /\ ms_h m = h0) /\ (mc_stack c = [] -> observed (mc_trace c) = mexpected im (mc_trace c)).
Proof.
  intros Hth c. assert (I : moinv c).
  { unfold c. change (0 :: 0 :: sched)%nat with ([0; 0] ++ sched)%nat. unfold mrun. rewrite fold_left_app. apply moinv_run. now apply moinv_init. }
  split; [apply I|]. intros Hk. destruct I as [_ _ _ _ (os & its & E0 & _ & G0)]. rewrite Hk in E0. symmetry in E0. apply app_eq_nil in E0 as [E0 _]. apply map_eq_nil in E0 as ->.
  now rewrite app_nil_r in G0.
Qed.
End Observe.
