(** C49, C50, C55: monos.  [calls], [outcomes], [signals], [finals],
    [registered] and [fired] (MonoFacts.v) read off a trace what happened;
    [call_outcome] says which callback a call is meant to cause. *)
From Verif Require Import Base MonoModel MonoFacts.
From Coq Require Import Permutation.

(** ** C49 *)
(** At every moment of every execution a subscription has had at most one
    outcome and at most one Finally. *)
Theorem C49_at_most_one_outcome :
  forall V E O C St source code (st : St) threads sched s,
    let c : mconf V E O C St := mrun source code sched (minit st threads) in
    (List.length (outcomes s (mc_trace c)) <= 1)%nat /\ (List.length (finals s (mc_trace c)) <= 1)%nat.
Proof.
  intros. pose proof (minv_run source code sched _ (minv_init st threads) s) as I. fold c in I.
  destruct (nth_error (mc_subs c) s) as [m|].
  - destruct I as [A1 A2 A3 A4 A5 A6 A7]. rewrite A4, A6.
    assert (L : (List.length (signals s (mc_trace c)) <= 1)%nat).
    { apply (f_equal (@List.length _)) in A5. rewrite app_length in A5. destruct (first _); cbn in A5; lia. }
    destruct (first _) as [[v|e|]|]; cbn; try destruct (h_success (ms_h m)); try destruct (h_error (ms_h m)); destruct (h_finally (ms_h m)); cbn; lia.
  - destruct I as [A1 A2 A3 A4 A5]. rewrite A2, A5. cbn. lia.
Qed.
(** When nothing is left to do, the first call has had its effect and no other
    call has had any. *)
Theorem C49_first_call_decides :
  forall V E O C St source code (st : St) threads sched s m,
    let c : mconf V E O C St := mrun source code sched (minit st threads) in
    nth_error (mc_subs c) s = Some m -> mc_stack c = [] ->
    match calls s (mc_trace c) with
    | [] => outcomes s (mc_trace c) = [] /\ finals s (mc_trace c) = []
    | k :: _ => outcomes s (mc_trace c) = call_outcome (ms_h m) k /\
                finals s (mc_trace c) = if h_finally (ms_h m) then [call_signal k] else []
    end.
Proof.
  intros V E O C St source code st threads sched s m c Hm Hk.
  pose proof (minv_run source code sched _ (minv_init st threads) s) as I. fold c in I. rewrite Hm in I.
  destruct I as [A1 A2 A3 A4 A5 A6 A7]. rewrite Hk in A5. cbn in A5. rewrite app_nil_r in A5.
  destruct (calls s (mc_trace c)) as [|k l]; cbn [first] in *; rewrite A4, A6, A5; [|auto]. now destruct (h_finally (ms_h m)).
Qed.
(** With one subscription: once nothing is left to do after the first call,
    every registered notification has been called exactly once; those called
    after the outcome is settled get its signal, those called from within the
    outcome's own callback get SignalComplete. *)
Theorem C49_notifications_fire_once :
  forall V E O C St source code (st : St) threads sched m k,
    let c : mconf V E O C St := mrun source code sched (minit st threads) in
    mc_subs c = [m] -> mc_stack c = [] -> first (calls 0 (mc_trace c)) = Some k ->
    Permutation (registered (mc_trace c)) (fired (mc_trace c)) /\
    forall t1 id g t2, mc_trace c = t1 ++ EFired id g :: t2 ->
      if existsb (fun ev => match ev with ESignal 0 _ => true | _ => false end) t1 then g = call_signal k else g = SigComplete.
Proof.
  intros V E O C St source code st threads sched m k c Hs Hk Hf.
  pose proof (minv_run source code sched _ (minv_init st threads) 0%nat) as I.
  pose proof (ninv_run source code sched _ (minv_init st threads) (ninv_init st threads)) as N. fold c in I, N.
  unfold ninv in N. rewrite Hs in I, N. cbn [nth_error] in I. destruct N as (A1 & A2 & A3 & A4 & A5 & A6 & A7).
  destruct I as [B1 B2 B3 B4 B5 B6 B7]. rewrite Hf in B1, B5. rewrite B1, Hk in A2. cbn in A2. rewrite app_nil_r in A2.
  split; [exact A2|]. intros t1 id g t2 Ht. pose proof (A6 _ _ _ _ Ht) as ->.
  rewrite Ht, Hk in B5. unfold signals in B5. rewrite flat_map_app in B5. cbn in B5. rewrite app_nil_r in B5.
  fold (signals (E:=E) (O:=O) (V:=V) 0 t1) in B5. unfold sig_after.
  assert (X : existsb (fun ev => match ev with ESignal 0 _ => true | _ => false end) t1 = match signals 0 t1 with [] => false | _ => true end).
  { clear. induction t1 as [|[] t1 IH]; cbn; auto. destruct s; cbn; auto. }
  rewrite X. destruct (signals 0 t1) as [|g l]; cbn in *; [reflexivity|]. now inversion B5.
Qed.
(** Get returns what was delivered. *)
Theorem C49_get_returns_delivered :
  forall V E O C St source code (st : St) threads sched m v e,
    let c : mconf V E O C St := mrun source code sched (minit st threads) in
    mc_subs c = [m] -> In (EGot v e) (mc_trace c) ->
    exists k, first (calls 0 (mc_trace c)) = Some k /\
      match k with CSuccess x => v = Some x /\ e = None | CError x => v = None /\ e = Some x | CCancel => v = None /\ e = None end.
Proof.
  intros V E O C St source code st threads sched m v e c Hs Hin.
  pose proof (ninv_run source code sched _ (minv_init st threads) (ninv_init st threads)) as N. fold c in N.
  unfold ninv in N. rewrite Hs in N. destruct N as (_ & _ & _ & _ & _ & _ & G).
  destruct (G v e Hin) as (k & Hk & -> & ->). exists k. split; [exact Hk|]. now destruct k.
Qed.
(** A Get before the first call ends the program. *)
Theorem C49_early_get_panics :
  forall V E O C St source code (c : mconf V E O C St) i rest,
    minv c -> mc_panicked c = false -> mc_stack c = IAct AGet :: rest ->
    match mc_cur c with Some s => calls s (mc_trace c) = [] | None => True end ->
    mc_panicked (mstep source code c i) = true.
Proof.
  intros V E O C St source code c i rest I P Hk H. unfold mstep. rewrite P, Hk. cbn [do_item].
  destruct (mc_cur c) as [s|]; [|reflexivity]. specialize (I s). destruct (nth_error (mc_subs c) s) as [m|]; [|reflexivity].
  destruct I as [B1 _ _ _ _ _ _]. rewrite H in B1. cbn in B1. now rewrite B1.
Qed.

Definition noop : list (mevent N N N) -> N -> list (mact N N N Empty_set) := fun _ _ => [].
Definition nocode (c : Empty_set) (_ : list (mevent N N N)) (_ : unit) : option (unit * list (mact N N N Empty_set)) := match c with end.
Definition note (_ : list (mevent N N N)) (_ : signal) : list (mact N N N Empty_set) := [].
(** A subscriber whose success callback calls the sink again and registers a
    notification; other goroutines also report results. *)
Definition c49_conf : mconf N N N Empty_set unit :=
  mrun (fun _ => []) nocode (repeat 0%nat 60)
    (minit tt [[ANotify 1 note; ASubscribe (Handlers (Some (fun _ v => [ACall 0 (CError 9); ANotify 2 note; ACall 0 (CSuccess 8)])) (Some noop) (Some (fun _ _ => [])))];
               [ANotify 3 note]; [ACall 0 (CSuccess 7)]; [ACall 0 CCancel; ANotify 4 note; AGet]]).
Example C49_example :
  mc_stack c49_conf = [] /\ List.length (mc_subs c49_conf) = 1%nat /\
  outcomes 0 (mc_trace c49_conf) = [inl 7] /\ finals 0 (mc_trace c49_conf) = [SigComplete] /\
  registered (mc_trace c49_conf) = [1; 3; 2; 4] /\ fired (mc_trace c49_conf) = [2; 1; 3; 4] /\
  In (EGot (Some 7) None) (mc_trace c49_conf) /\
  calls 0 (mc_trace c49_conf) = [CSuccess 7; CError 9; CSuccess 8; CCancel].
Proof. vm_compute. repeat split. auto 20. Qed.
Example C49_example_get : exists i rest, let c : mconf N N N Empty_set unit := mrun (fun _ => []) nocode [0%nat; 0%nat] (minit tt [[ASubscribe (Handlers None None None); AGet]]) in
  mc_panicked c = false /\ mc_stack c = IAct AGet :: rest /\ mc_panicked (mstep (fun _ => []) nocode c i) = true.
Proof. exists 0%nat, []. vm_compute. auto. Qed.
(** A notification registered from within the error callback is told that the
    mono completed successfully. *)
Theorem C49_notify_in_error_callback_refuted :
  exists c : mconf N N N Empty_set unit,
    c = mrun (fun _ => []) nocode (repeat 0%nat 20)
          (minit tt [[ASubscribe (Handlers None (Some (fun _ _ => [ANotify 1 note])) None); ACall 0 (CError 5)]]) /\
    outcomes 0 (mc_trace c) = [inr 5] /\ mc_stack c = [] /\ In (EFired 1 SigComplete) (mc_trace c) /\ signals 0 (mc_trace c) = [SigError].
Proof. eexists. split; [reflexivity|]. vm_compute. repeat split. auto 10. Qed.
(** Subscribing again calls the notifications of the first subscription again. *)
Theorem C49_resubscription_fires_again :
  exists c : mconf N N N Empty_set unit,
    c = mrun (fun s => [ACall s (CSuccess 5)]) nocode (repeat 0%nat 30)
          (minit tt [[ANotify 1 note; ASubscribe (Handlers None None None); ASubscribe (Handlers None None None)]]) /\
    mc_stack c = [] /\ registered (mc_trace c) = [1] /\ fired (mc_trace c) = [1; 1].
Proof. eexists. split; [reflexivity|]. vm_compute. repeat split. Qed.
Print Assumptions C49_at_most_one_outcome.
Print Assumptions C49_first_call_decides.
Print Assumptions C49_notifications_fire_once.
Print Assumptions C49_get_returns_delivered.
Print Assumptions C49_early_get_panics.
Print Assumptions C49_notify_in_error_callback_refuted.
Print Assumptions C49_resubscription_fires_again.

(** ** C50.  Which result counts: the last success before the subscription,
    else the last error before it, else the first result after it. *)
Fixpoint last_left {A B} (l : list (A + B)) : option A :=
  match l with [] => None | x :: l' => match last_left l', x with Some a, _ => Some a | None, inl a => Some a | None, inr _ => None end end.
Fixpoint last_right {A B} (l : list (A + B)) : option B :=
  match l with [] => None | x :: l' => match last_right l', x with Some a, _ => Some a | None, inr a => Some a | None, inl _ => None end end.
Definition decided {A B} (pre post : list (A + B)) : option (A + B) :=
  match last_left pre, last_right pre with
  | Some a, _ => Some (inl a)
  | None, Some b => Some (inr b)
  | None, None => match post with r :: _ => Some r | [] => None end
  end.
(** What the subscriber then sees. *)
Definition seen {V E O C} (h : handlers V E O C) (r : V + E) : list (V + E) :=
  match r with inl v => if h_success h then [inl v] else [] | inr e => if h_error h then [inr e] else [] end.

Section Processor.
Context {V E O : Type}.
Notation conf := (mconf V E O (pcode V E) (pstore V E)).
Notation act := (mact V E O (pcode V E)).
Definition results (l : list (V + E)) : list act := map (fun r => ADo (PResult r)) l.
Variables (h : handlers V E O (pcode V E)) (pre post : list (V + E)).
Definition pinv (c : conf) : Prop :=
  (exists m, nth_error (mc_subs c) 0 = Some m /\ ms_h m = h /\
     match decided pre post with Some r => first (calls 0 (mc_trace c)) = Some (result_call r) | None => False end) \/
  (mc_panicked c = false /\ mc_trace c = [] /\
   ((mc_subs c = [] /\ mc_stack c = [] /\ mc_threads c = [results pre ++ ASubscribe h :: results post] /\ mc_store c = pstore0) \/
    (mc_subs c = [] /\ mc_threads c = [] /\ exists p1 p2, pre = p1 ++ p2 /\ mc_stack c = acts (results p2 ++ ASubscribe h :: results post) /\
       mc_store c = {| ps_sink := None; ps_success := last_left p1; ps_err := last_right p1 |}) \/
    (exists m, mc_subs c = [m] /\ ms_h m = h /\ ms_closed m = false /\ mc_threads c = [] /\
       ((mc_stack c = acts (ADo (PSource 0) :: results post) /\ mc_store c = {| ps_sink := None; ps_success := last_left pre; ps_err := last_right pre |}) \/
        (exists r rest, decided pre post = Some r /\ mc_stack c = IAct (ACall 0 (result_call r)) :: rest) \/
        (last_left pre = None /\ last_right pre = None /\ mc_stack c = acts (results post) /\ ps_sink (mc_store c) = Some 0%nat))))).
Lemma last_left_snoc (l : list (V + E)) r : last_left (l ++ [r]) = match r with inl v => Some v | inr _ => last_left l end.
Proof. induction l as [|x l IH]; cbn; [now destruct r|]. rewrite IH. destruct r; [reflexivity|]. now destruct (last_left l). Qed.
Lemma last_right_snoc (l : list (V + E)) r : last_right (l ++ [r]) = match r with inr v => Some v | inl _ => last_right l end.
Proof. induction l as [|x l IH]; cbn; [now destruct r|]. rewrite IH. destruct r; [|reflexivity]. now destruct (last_right l). Qed.
Lemma pinv_step c i : pinv c -> pinv (mstep proc_source proc_code c i).
Proof.
  intros [(m & Hm & Hh & Hd)|(Hp & Ht & Hc)].
  { left. destruct (step_h proc_source proc_code c i 0%nat m Hm) as (m' & Hm' & Hh'). exists m'. split; [exact Hm'|]. split; [congruence|].
    destruct (decided pre post); [|exact Hd]. now apply step_first. }
  destruct Hc as [(Hs & Hk & Hth & Hst)|[(Hs & Hth & p1 & p2 & Hpre & Hk & Hst)|(m & Hs & Hh & Hcl & Hth & Hc)]].
  - unfold mstep. rewrite Hp, Hk, Hth. right. destruct i as [|i].
    + cbn [nth_error]. repeat split; [assumption..|]. right. left. cbn [mc_subs mc_threads mc_stack mc_store]. repeat split; auto.
      exists [], pre. repeat split. exact Hst.
    + cbn [nth_error]. rewrite nth_nil. repeat split; auto.
  - unfold mstep. rewrite Hp, Hk. right. destruct p2 as [|r p2].
    + rewrite app_nil_r in Hpre. subst p1. cbn [results map app acts do_item]. repeat split; [assumption..|]. right. right.
      cbn [mc_subs mc_threads mc_stack mc_store]. rewrite Hs. cbn [app List.length]. eexists. split; [reflexivity|]. repeat split; auto.
    + cbn [results map app acts do_item]. rewrite Hst. cbn [proc_code ps_sink ps_success ps_err].
      repeat split; [assumption..|]. right. left. cbn [mc_subs mc_threads mc_stack mc_store]. repeat split; auto.
      exists (p1 ++ [r]), p2. rewrite <- app_assoc. cbn [app]. repeat split; auto. rewrite last_left_snoc, last_right_snoc. now destruct r.
  - destruct Hc as [(Hk & Hst)|[(r & rest & Hd & Hk)|(Hl & Hr & Hk & Hst)]].
    + unfold mstep. rewrite Hp, Hk. right. cbn [results map app acts do_item]. rewrite Hst. cbn [proc_code ps_sink ps_success ps_err].
      cbn [mc_panicked mc_trace mc_subs mc_threads mc_stack mc_store].
      repeat split; [assumption..|]. right. right. exists m. repeat split; auto. right.
      destruct (last_left pre) as [v|] eqn:El; [|destruct (last_right pre) as [e|] eqn:Er].
      * left. exists (inl v), (acts (results post)). unfold decided. now rewrite El.
      * left. exists (inr e), (acts (results post)). unfold decided. now rewrite El, Er.
      * right. auto.
    + left. unfold mstep. rewrite Hp, Hk. cbn [do_item]. unfold do_call. rewrite Hs. cbn [nth_error]. rewrite Hcl, Hd.
      destruct r as [v|e]; cbn [result_call]; [destruct (h_success (ms_h m))|destruct (h_error (ms_h m))]; cbn [emit mc_subs mset firstn skipn app nth_error mc_trace];
        (eexists; split; [reflexivity|]; split; [exact Hh|]; rewrite Ht; reflexivity).
    + unfold mstep. rewrite Hp, Hk. right. destruct post as [|r post'] eqn:Epost.
      * cbn [results map acts]. rewrite Hth, nth_nil. repeat split; auto. right. right. exists m. repeat split; auto. right. right. auto.
      * cbn [results map acts do_item]. unfold proc_code. rewrite Hst.
        cbn [mc_panicked mc_trace mc_subs mc_threads mc_stack mc_store].
        repeat split; [assumption..|]. right. right. exists m. repeat split; auto. right. left.
        exists r, (acts (results post')). unfold decided. now rewrite Hl, Hr.
Qed.
Lemma pinv_run sched c : pinv c -> pinv (mrun proc_source proc_code sched c).
Proof. revert c. induction sched; intros c H; [exact H|]. cbn. apply IHsched. now apply pinv_step. Qed.
End Processor.

(** The subscriber's callbacks may do anything. *)
Theorem C50_processor_delivers_decided :
  forall V E O (h : handlers V E O (pcode V E)) pre post sched,
    let c := mrun proc_source proc_code sched (minit pstore0 [results pre ++ ASubscribe h :: results post]) in
    mc_stack c = [] -> mc_threads c = [] ->
    outcomes 0 (mc_trace c) = match decided pre post with Some r => seen h r | None => [] end.
Proof.
  intros V E O h pre post sched c Hk Hth.
  assert (P : pinv h pre post c).
  { apply pinv_run. right. repeat split. left. repeat split. }
  pose proof (minv_run proc_source proc_code sched _ (minv_init pstore0 [results pre ++ ASubscribe h :: results post]) 0%nat) as I. fold c in I.
  destruct P as [(m & Hm & Hh & Hd)|(Hp & Ht & Hc)].
  - rewrite Hm in I. destruct I as [_ _ _ I _ _ _]. rewrite I.
    destruct (decided pre post) as [r|]; [|easy]. rewrite Hd, Hh. now destruct r.
  - rewrite Ht. cbn [outcomes flat_map].
    destruct Hc as [(Hs & Hk' & Hth' & Hst)|[(Hs & Hth' & p1 & p2 & Hpre & Hk' & Hst)|(m & Hs & Hh & Hcl & Hth' & Hc)]].
    + congruence.
    + rewrite Hk in Hk'. now destruct p2.
    + destruct Hc as [(Hk' & Hst)|[(r & rest & Hd & Hk')|(Hl & Hr & Hk' & Hst)]]; rewrite Hk in Hk'; try discriminate.
      unfold decided. rewrite Hl, Hr. now destruct post.
Qed.
Definition c50_conf (pre post : list (N + N)) : mconf N N N (pcode N N) (pstore N N) :=
  mrun proc_source proc_code (repeat 0%nat 60)
    (minit pstore0 [results pre ++ ASubscribe (Handlers (Some (fun _ _ => [ADo (PResult (inr 99))])) (Some (fun _ _ => [])) None) :: results post]).
Example C50_example :
  (mc_stack (c50_conf [inl 1; inr 2; inl 3; inr 4] [inl 5]) = [] /\ mc_threads (c50_conf [inl 1; inr 2; inl 3; inr 4] [inl 5]) = []) /\
  outcomes 0 (mc_trace (c50_conf [inl 1; inr 2; inl 3; inr 4] [inl 5])) = [inl 3] /\
  outcomes 0 (mc_trace (c50_conf [inr 2; inr 4] [inl 5])) = [inr 4] /\
  outcomes 0 (mc_trace (c50_conf [] [inl 5; inr 6])) = [inl 5] /\
  outcomes 0 (mc_trace (c50_conf [] [])) = [].
Proof. vm_compute. repeat split. Qed.
Print Assumptions C50_processor_delivers_decided.

(** ** C55 *)
(** Code that does not itself record observations. *)
Inductive silent {V E O C} : mact V E O C -> Prop :=
| sil_call s k : silent (ACall s k)
| sil_sub h : silent_handlers h -> silent (ASubscribe h)
| sil_notify id fn : (forall t g a, In a (fn t g) -> silent a) -> silent (ANotify id fn)
| sil_get : silent AGet
| sil_do k : silent (ADo k)
with silent_handlers {V E O C} : handlers V E O C -> Prop :=
| sil_handlers a b f :
    (forall fn, a = Some fn -> forall t v x, In x (fn t v) -> silent x) ->
    (forall fn, b = Some fn -> forall t v x, In x (fn t v) -> silent x) ->
    (forall fn, f = Some fn -> forall t v x, In x (fn t v) -> silent x) -> silent_handlers (Handlers a b f).
Definition obs_of {V E O} (ev : mevent V E O) : list O := match ev with EObs o => [o] | _ => [] end.
Definition observed {V E O} (t : list (mevent V E O)) : list O := flat_map obs_of t.
(** What a subscriber of the mapped mono is to see of an outcome of the source. *)
Definition mapped {V E D} (ok er : bool) (tx : V -> D + E) (r : V + E) : list (dobs D E) :=
  match r with
  | inl v => match tx v with inl d => if ok then [DSuccess d] else [] | inr e => if er then [DError e] else [] end
  | inr e => if er then [DError e] else []
  end.
Definition has {A} (o : option A) : bool := if o then true else false.

Section Silent.
Context {V E D C : Type}.
Definition item_silent (i : mitem V E (dobs D E) C) : Prop :=
  match i with IAct x => silent x | IFire _ fn _ => forall t g, Forall silent (fn t g) | _ => True end.
Definition obs_item (i : mitem V E (dobs D E) C) : Prop := exists o, i = IAct (AObs o).
Definition pending_obs (k : list (mitem V E (dobs D E) C)) : list (dobs D E) :=
  match k with IAct (AObs o) :: _ => [o] | _ => [] end.
Definition stack_silent (k : list (mitem V E (dobs D E) C)) : Prop :=
  match k with IAct (AObs _) :: k' => Forall item_silent k' | _ => Forall item_silent k end.
Lemma item_acts l : Forall silent l -> Forall item_silent (acts l).
Proof. unfold acts. induction 1; cbn; auto. Qed.
Lemma silent_ok k : Forall item_silent k -> stack_silent k /\ pending_obs k = [].
Proof.
  intros H. destruct k as [|[[]| | |] k]; try (split; [exact H|reflexivity]).
  inversion H. subst. cbn in *. inversion H2.
Qed.
Lemma push_success (tx : V -> D + E) (a : option (list (dev V E D) -> D -> list (dact V E D C))) (b : option (list (dev V E D) -> E -> list (dact V E D C))) v t k :
  (forall fn, a = Some fn -> forall t v, Forall silent (fn t v)) ->
  (forall fn, b = Some fn -> forall t v, Forall silent (fn t v)) -> Forall item_silent k ->
  let l := acts (match tx v with
                 | inr e => match b with Some f => AObs (DError e) :: f t e | None => [] end
                 | inl d => match a with Some f => AObs (DSuccess d) :: f t d | None => [] end
                 end) ++ k in
  stack_silent l /\ pending_obs l = mapped (has a) (has b) tx (inl v).
Proof.
  intros Ha Hb Hk. cbv zeta. unfold mapped.
  assert (K := silent_ok k Hk).
  destruct (tx v); [destruct a as [fn|]|destruct b as [fn|]]; cbn [acts map app has]; try exact K; split; try reflexivity;
    cbn [stack_silent]; apply Forall_app; (split; [apply item_acts; eauto|assumption]).
Qed.
Lemma push_error (tx : V -> D + E) (a : option (list (dev V E D) -> D -> list (dact V E D C))) (b : option (list (dev V E D) -> E -> list (dact V E D C))) fn e t k :
  (forall fn, b = Some fn -> forall t v, Forall silent (fn t v)) -> Forall item_silent k -> b = Some fn ->
  let l := acts (AObs (DError e) :: fn t e) ++ k in
  stack_silent l /\ pending_obs l = mapped (has a) (has b) tx (inr e).
Proof.
  intros Hb Hk ->. cbn. split; [|reflexivity]. apply Forall_app. split; [apply item_acts; eauto|assumption].
Qed.
End Silent.
Section Map.
Context {V E D C St : Type}.
Notation act := (mact V E (dobs D E) C).
Notation conf := (mconf V E (dobs D E) C St).
Variable source : nat -> list act.
Variable code : C -> list (mevent V E (dobs D E)) -> St -> option (St * list act).
Hypothesis source_silent : forall s, Forall silent (source s).
Hypothesis code_silent : forall k t st st' l, code k t st = Some (st', l) -> Forall silent l.
Variable tx : V -> D + E.
Variables (a : option (list (dev V E D) -> D -> list (dact V E D C)))
          (b : option (list (dev V E D) -> E -> list (dact V E D C)))
          (f : option (list (dev V E D) -> signal -> list (dact V E D C))).
Hypothesis a_silent : forall fn, a = Some fn -> forall t v, Forall silent (fn t v).
Hypothesis b_silent : forall fn, b = Some fn -> forall t v, Forall silent (fn t v).
Hypothesis f_silent : forall fn, f = Some fn -> forall t v, Forall silent (fn t v).
Definition hm : handlers V E (dobs D E) C := map_handlers tx a b f.
Definition dinv (c : conf) : Prop :=
  (exists m, nth_error (mc_subs c) 0 = Some m /\ ms_h m = hm) /\
  (forall s m, nth_error (mc_subs c) (S s) = Some m -> silent_handlers (ms_h m)) /\
  Forall (fun cb => forall t g, Forall silent (snd cb t g)) (mc_callbacks c) /\
  Forall (Forall silent) (mc_threads c) /\
  stack_silent (mc_stack c) /\
  observed (mc_trace c) ++ pending_obs (mc_stack c) = flat_map (mapped (has a) (has b) tx) (outcomes 0 (mc_trace c)).
Lemma dinv_quiet (c c' : conf) ev :
  dinv c -> mc_subs c' = mc_subs c -> Forall (fun cb => forall t g, Forall silent (snd cb t g)) (mc_callbacks c') ->
  Forall (Forall silent) (mc_threads c') -> mc_trace c' = mc_trace c ++ ev -> observed ev = [] -> outcomes 0 ev = [] ->
  pending_obs (mc_stack c) = [] -> Forall item_silent (mc_stack c') -> dinv c'.
Proof.
  intros (A1 & A2 & A3 & A4 & A5 & A6) Hs Hc Hth Ht He Ho Hp Hk. unfold dinv. rewrite Hs, Ht.
  destruct (silent_ok _ Hk) as [K1 K2]. repeat split; auto. rewrite K2, app_nil_r.
  unfold observed, outcomes in *. rewrite !flat_map_app, He, Ho, !app_nil_r. rewrite Hp, app_nil_r in A6. exact A6.
Qed.
Lemma sub_handlers c s m : dinv c -> nth_error (mc_subs c) s = Some m -> ms_h m = hm \/ ms_h m <> hm /\ silent_handlers (ms_h m) \/ (exists s', s = S s' /\ silent_handlers (ms_h m)).
Proof.
  intros (A1 & A2 & _) H. destruct s as [|s]; [left|right; right; exists s; split; [reflexivity|eauto]].
  destruct A1 as (m' & Hm' & Hh). congruence.
Qed.
Lemma silent_success h fn t v : silent_handlers h -> h_success h = Some fn -> Forall (@silent V E (dobs D E) C) (fn t v).
Proof. intros H Hf. inversion H; subst. cbn in Hf. apply Forall_forall. intros x Hx. eauto. Qed.
Lemma silent_error h fn t v : silent_handlers h -> h_error h = Some fn -> Forall (@silent V E (dobs D E) C) (fn t v).
Proof. intros H Hf. inversion H; subst. cbn in Hf. apply Forall_forall. intros x Hx. eauto. Qed.
Lemma silent_finally h fn t v : silent_handlers h -> h_finally h = Some fn -> Forall (@silent V E (dobs D E) C) (fn t v).
Proof. intros H Hf. inversion H; subst. cbn in Hf. apply Forall_forall. intros x Hx. eauto. Qed.
(** Replacing one subscription without changing its handlers. *)
Lemma dinv_set (c : conf) s m m' ev k :
  dinv c -> nth_error (mc_subs c) s = Some m -> ms_h m' = ms_h m -> pending_obs (mc_stack c) = [] ->
  stack_silent k ->
  observed ev ++ pending_obs k = flat_map (mapped (has a) (has b) tx) (outcomes 0 ev) -> observed ev = [] ->
  dinv (emit c (mset (mc_subs c) s m') ev k).
Proof.
  intros (A1 & A2 & A3 & A4 & A5 & A6) Hm Hh Hp Hk Ho He. unfold dinv, emit. cbn [mc_subs mc_callbacks mc_threads mc_stack mc_trace].
  assert (Hlt := nth_some_lt _ _ _ Hm). repeat split; auto.
  - rewrite nth_mset by assumption. destruct A1 as (m0 & H0 & H0'). destruct s as [|s]; cbn [Nat.eqb].
    + exists m'. split; [reflexivity|]. congruence.
    + eauto.
  - intros j x Hx. rewrite nth_mset in Hx by assumption. destruct (Nat.eqb s (S j)) eqn:Ej.
    + apply Nat.eqb_eq in Ej as ->. injection Hx as <-. rewrite Hh. eauto.
    + eauto.
  - unfold observed, outcomes in *. rewrite !flat_map_app, <- app_assoc, Ho. rewrite Hp, app_nil_r in A6. now rewrite A6.
Qed.
Lemma dinv_step c i : dinv c -> dinv (mstep source code c i).
Proof.
  intros I. pose proof I as (A1 & A2 & A3 & A4 & A5 & A6).
  unfold mstep. destruct (mc_panicked c); [exact I|].
  destruct (mc_stack c) as [|it rest] eqn:Hk.
  - destruct (nth_error (mc_threads c) i) as [t|] eqn:Et; [|exact I].
    eapply dinv_quiet with (ev := []); eauto; cbn [mc_callbacks mc_threads mc_trace mc_stack]; rewrite ?app_nil_r; auto.
    + apply Forall_forall. intros x Hx. rewrite Forall_forall in A4. apply A4. apply in_app_iff in Hx as [Hx|Hx]; [eapply in_firstn|eapply in_skipn]; eauto.
    + now rewrite Hk.
    + apply item_acts. rewrite Forall_forall in A4. apply A4. eapply nth_error_In; eauto.
  - destruct it as [[s k|h|id fn| |o|k]|s g|s g|id fn g]; cbn [do_item].
    + cbn [stack_silent] in A5. inversion A5 as [|? ? S1 S2]; subst.
      unfold do_call. destruct (nth_error (mc_subs c) s) as [m|] eqn:Em.
      2:{ eapply dinv_quiet with (ev := []); eauto. now rewrite Hk. }
      destruct (ms_closed m).
      { eapply dinv_quiet with (ev := [ECalled s k]); eauto. now rewrite Hk. }
      assert (P : pending_obs (mc_stack c) = []) by now rewrite Hk.
      assert (R : forall g, Forall item_silent (IFinally s g :: rest)) by (intros; constructor; auto; exact Logic.I).
      destruct k as [v|e|].
      * destruct (h_success (ms_h m)) as [fn|] eqn:Hf.
        -- destruct s as [|s].
           ++ destruct A1 as (m0 & H0 & H0'). assert (m0 = m) by congruence. subst m0. rewrite H0' in Hf. injection Hf as <-.
              destruct (push_success tx a b v (mc_trace c ++ [ECalled 0 (CSuccess v); EOnSuccess 0 v]) (IFinally 0 SigComplete :: rest) a_silent b_silent (R _)) as [K1 K2].
              eapply dinv_set; eauto. cbn [observed flat_map obs_of outcomes outcome_of Nat.eqb app]. rewrite app_nil_r. exact K2.
           ++ assert (Sil := silent_success _ fn (mc_trace c ++ [ECalled (S s) (CSuccess v); EOnSuccess (S s) v]) v (A2 _ _ Em) Hf).
              assert (K : Forall item_silent (acts (fn (mc_trace c ++ [ECalled (S s) (CSuccess v); EOnSuccess (S s) v]) v) ++ IFinally (S s) SigComplete :: rest))
                by (apply Forall_app; split; [now apply item_acts|auto]).
              destruct (silent_ok _ K) as [K1 K2]. eapply dinv_set; eauto.
        -- destruct s as [|s].
           { destruct A1 as (m0 & H0 & H0'). assert (m0 = m) by congruence. subst m0. rewrite H0' in Hf. discriminate. }
           eapply dinv_set; eauto. now apply (silent_ok _ (R _)).
      * destruct (h_error (ms_h m)) as [fn|] eqn:Hf.
        -- destruct s as [|s].
           ++ destruct A1 as (m0 & H0 & H0'). assert (m0 = m) by congruence. subst m0. rewrite H0' in Hf. cbn in Hf.
              assert (X : exists fb, b = Some fb /\ fn = fun t e => AObs (DError e) :: fb t e).
              { clear - Hf. revert Hf. case b; [|discriminate]. intros fb Hf. injection Hf as <-. eauto. }
              destruct X as (fb & Eb & ->).
              destruct (push_error tx a b fb e (mc_trace c ++ [ECalled 0 (CError e); EOnError 0 e]) (IFinally 0 SigError :: rest) b_silent (R _) Eb) as [K1 K2].
              eapply dinv_set; eauto. cbn [observed flat_map obs_of outcomes outcome_of Nat.eqb app]. rewrite app_nil_r. exact K2.
           ++ assert (Sil := silent_error _ fn (mc_trace c ++ [ECalled (S s) (CError e); EOnError (S s) e]) e (A2 _ _ Em) Hf).
              assert (K : Forall item_silent (acts (fn (mc_trace c ++ [ECalled (S s) (CError e); EOnError (S s) e]) e) ++ IFinally (S s) SigError :: rest))
                by (apply Forall_app; split; [now apply item_acts|auto]).
              destruct (silent_ok _ K) as [K1 K2]. eapply dinv_set; eauto.
        -- eapply dinv_set; eauto. now apply (silent_ok _ (R _)).
      * eapply dinv_set; eauto. now apply (silent_ok _ (R _)).
    + cbn [stack_silent] in A5. inversion A5 as [|? ? S1 S2]; subst. cbn in S1. inversion S1 as [|? Sh| | |]; subst.
      assert (K : Forall item_silent (acts (source (List.length (mc_subs c))) ++ rest)) by (apply Forall_app; split; [now apply item_acts|auto]).
      destruct (silent_ok _ K) as [K1 K2]. unfold dinv. cbn [mc_subs mc_callbacks mc_threads mc_stack mc_trace]. repeat split; auto.
      * destruct A1 as (m0 & H0 & H0'). exists m0. split; [|exact H0']. rewrite nth_error_app1; [assumption|]. eapply nth_some_lt; eauto.
      * intros s m Hm. destruct (Nat.lt_ge_cases (S s) (List.length (mc_subs c))).
        -- rewrite nth_error_app1 in Hm by assumption. eauto.
        -- rewrite nth_error_app2 in Hm by assumption. destruct (S s - List.length (mc_subs c))%nat; cbn in Hm; [injection Hm as <-; exact Sh|]. now rewrite nth_nil in Hm.
      * rewrite K2. exact A6.
    + cbn [stack_silent] in A5. inversion A5 as [|? ? S1 S2]; subst. cbn in S1. inversion S1 as [| |? ? Sf | |]; subst.
      assert (Sf' : forall t g, Forall silent (fn t g)) by (intros; apply Forall_forall; eauto).
      unfold do_notify. destruct (match mc_cur c with Some _ => _ | None => _ end) as [m|] eqn:Em; [destruct (ms_closed m)|].
      * eapply dinv_quiet with (ev := [ERegistered id]); eauto; [now rewrite Hk|]. constructor; [exact Sf'|exact S2].
      * eapply dinv_quiet with (ev := [ERegistered id]); eauto; [|now rewrite Hk]. apply Forall_app. split; [assumption|]. constructor; [exact Sf'|constructor].
      * eapply dinv_quiet with (ev := [ERegistered id]); eauto; [|now rewrite Hk]. apply Forall_app. split; [assumption|]. constructor; [exact Sf'|constructor].
    + cbn [stack_silent] in A5. inversion A5 as [|? ? S1 S2]; subst.
      destruct (match mc_cur c with Some _ => _ | None => _ end) as [m|] eqn:Em; [destruct (ms_closed m)|].
      * eapply dinv_quiet with (ev := [EGot (ms_value m) (ms_err m)]); eauto. now rewrite Hk.
      * unfold dinv, panic. cbn [mc_subs mc_callbacks mc_threads mc_stack mc_trace]. rewrite Hk. repeat split; auto.
      * unfold dinv, panic. cbn [mc_subs mc_callbacks mc_threads mc_stack mc_trace]. rewrite Hk. repeat split; auto.
    + cbn [stack_silent] in A5. destruct (silent_ok _ A5) as [K1 K2]. unfold dinv, emit. cbn [mc_subs mc_callbacks mc_threads mc_stack mc_trace].
      repeat split; auto. rewrite K2, app_nil_r. cbn [pending_obs] in A6. unfold observed, outcomes in *. rewrite !flat_map_app. cbn. rewrite app_nil_r. exact A6.
    + cbn [stack_silent] in A5. inversion A5 as [|? ? S1 S2]; subst.
      destruct (code k (mc_trace c) (mc_store c)) as [[st l]|] eqn:Ec.
      * eapply dinv_quiet with (ev := []); eauto; [cbn; now rewrite app_nil_r|now rewrite Hk|]. cbn [mc_stack].
        apply Forall_app. split; [apply item_acts; eauto|auto].
      * unfold dinv, panic. cbn [mc_subs mc_callbacks mc_threads mc_stack mc_trace]. rewrite Hk. repeat split; auto.
    + cbn [stack_silent] in A5. inversion A5 as [|? ? S1 S2]; subst.
      unfold do_finally. destruct (nth_error (mc_subs c) s) as [m|] eqn:Em.
      2:{ eapply dinv_quiet with (ev := []); eauto. now rewrite Hk. }
      assert (P : pending_obs (mc_stack c) = []) by now rewrite Hk.
      assert (R : Forall item_silent (ILoop s g :: rest)) by (constructor; auto; exact Logic.I).
      destruct (h_finally (ms_h m)) as [fn|] eqn:Hf.
      * assert (Sil : Forall silent (fn (mc_trace c ++ [ESignal s g; EFinally s g]) g)).
        { destruct s as [|s]; [|eapply silent_finally; eauto].
          destruct A1 as (m0 & H0 & H0'). assert (m0 = m) by congruence. subst m0. rewrite H0' in Hf. cbn in Hf. eapply f_silent; eauto. }
        assert (K : Forall item_silent (acts (fn (mc_trace c ++ [ESignal s g; EFinally s g]) g) ++ ILoop s g :: rest))
          by (apply Forall_app; split; [now apply item_acts|auto]).
        destruct (silent_ok _ K) as [K1 K2]. eapply dinv_set; eauto.
      * destruct (silent_ok _ R) as [K1 K2]. eapply dinv_set; eauto.
    + cbn [stack_silent] in A5. inversion A5 as [|? ? S1 S2]; subst.
      eapply dinv_quiet with (ev := []); eauto; [now rewrite Hk|]. cbn [emit mc_stack].
      apply Forall_app. split; [|auto]. apply Forall_forall. intros x Hx. apply in_map_iff in Hx as (cb & <- & Hcb). cbn.
      rewrite Forall_forall in A3. exact (A3 cb Hcb).
    + cbn [stack_silent] in A5. inversion A5 as [|? ? S1 S2]; subst.
      eapply dinv_quiet with (ev := [EFired id g]); eauto; [now rewrite Hk|]. cbn [emit mc_stack].
      apply Forall_app. split; [apply item_acts; apply S1|auto].
Qed.
Lemma dinv_run sched c : dinv c -> dinv (mrun source code sched c).
Proof. revert c. induction sched; intros c H; [exact H|]. cbn. apply IHsched. now apply dinv_step. Qed.
Lemma dinv_start st threads : Forall (Forall silent) threads ->
  dinv (mrun source code [0%nat; 0%nat] (minit st ([ASubscribe hm] :: threads))).
Proof.
  intros H. cbn [mrun fold_left]. unfold mstep at 2. cbn [minit mc_panicked mc_stack mc_threads nth_error firstn skipn app].
  unfold mstep. cbn [mc_panicked mc_stack acts map do_item]. unfold dinv. cbn [mc_subs mc_callbacks mc_threads mc_stack mc_trace app List.length].
  assert (K : Forall item_silent (acts (source 0) ++ [])) by (apply Forall_app; split; [apply item_acts; apply source_silent|constructor]).
  destruct (silent_ok _ K) as [K1 K2]. repeat split; auto.
  - eexists. split; reflexivity.
  - intros s m Hm. cbn in Hm. now rewrite nth_nil in Hm.
  - constructor.
Qed.
End Map.

(** The mapped mono is subscribed to and then anything happens; callbacks and
    source may do anything except to fake observations. *)
Theorem C55_map_delivers_mapped_outcome :
  forall V E D C St source code tx a b f (st : St) threads sched,
    (forall s, Forall silent (source s)) ->
    (forall k t st st' l, code k t st = Some (st', l) -> Forall silent l) ->
    (forall fn, a = Some fn -> forall t v, Forall silent (fn t v)) ->
    (forall fn, b = Some fn -> forall t v, Forall silent (fn t v)) ->
    (forall fn, f = Some fn -> forall t v, Forall silent (fn t v)) ->
    Forall (Forall silent) threads ->
    let c : mconf V E (dobs D E) C St :=
      mrun source code (0%nat :: 0%nat :: sched) (minit st ([ASubscribe (map_handlers tx a b f)] :: threads)) in
    mc_stack c = [] ->
    match calls 0 (mc_trace c) with
    | [] => observed (mc_trace c) = [] /\ finals 0 (mc_trace c) = []
    | CSuccess v :: _ =>
        observed (mc_trace c) = match tx v with inl d => if a then [DSuccess d] else [] | inr e => if b then [DError e] else [] end /\
        finals 0 (mc_trace c) = if f then [SigComplete] else []
    | CError e :: _ => observed (mc_trace c) = (if b then [DError e] else []) /\ finals 0 (mc_trace c) = if f then [SigError] else []
    | CCancel :: _ => observed (mc_trace c) = [] /\ finals 0 (mc_trace c) = if f then [SigCancel] else []
    end.
Proof.
  intros V E D C St source code tx a b f st threads sched Hsrc Hcode Ha Hb Hf Hth c Hk.
  assert (Dv : dinv tx a b f c).
  { unfold c. change (0%nat :: 0%nat :: sched) with ([0%nat; 0%nat] ++ sched). unfold mrun. rewrite fold_left_app.
    apply dinv_run; auto. apply dinv_start; auto. }
  destruct Dv as ((m & Hm & Hh) & _ & _ & _ & _ & Ho). rewrite Hk in Ho. cbn [pending_obs] in Ho. rewrite app_nil_r in Ho.
  pose proof (C49_first_call_decides V E (dobs D E) C St source code st _ (0%nat :: 0%nat :: sched) 0%nat m Hm Hk) as T. fold c in T.
  destruct (calls 0 (mc_trace c)) as [|k l]; destruct T as [T1 T2]; rewrite Ho, T1, T2; [auto|].
  rewrite Hh. destruct k as [v|e|]; cbn.
  - rewrite app_nil_r. unfold has. destruct f, (tx v), a, b; auto.
  - unfold has. destruct f, b; auto.
  - now destruct f.
Qed.
(** Get on a mapped mono: the mapped value, the mapping's error or the
    source's error; after a cancellation the mapping is applied to a zero value. *)
Theorem C55_map_get :
  forall V E D O C St zero (tx : V -> D + E) source code (st : St) threads sched m v e,
    let c : mconf V E O C St := mrun source code sched (minit st threads) in
    mc_subs c = [m] -> In (EGot v e) (mc_trace c) ->
    map_get zero tx v e =
      match first (calls 0 (mc_trace c)) with Some (CSuccess x) => tx x | Some (CError x) => inr x | _ => tx zero end.
Proof.
  intros V E D O C St zero tx source code st threads sched m v e c Hs Hin.
  destruct (C49_get_returns_delivered V E O C St source code st threads sched m v e Hs Hin) as (k & Hk & Hv).
  fold c in Hk. rewrite Hk. destruct k; destruct Hv as [-> ->]; reflexivity.
Qed.
Definition half (n : N) : N + N := if N.even n then inl (n / 2) else inr n.
Definition c55_conf (k : mcall N N) : mconf N N (dobs N N) Empty_set unit :=
  mrun (fun _ => []) (fun (c : Empty_set) _ _ => match c with end) (repeat 0%nat 30)
    (minit tt [[ASubscribe (map_handlers half (Some (fun _ _ => [ACall 0 (CError 77)])) (Some (fun _ _ => [])) (Some (fun _ _ => [])))]; [ACall 0 k; AGet; ACall 0 CCancel]]).
Example C55_example :
  mc_stack (c55_conf (CSuccess 8)) = [] /\
  observed (mc_trace (c55_conf (CSuccess 8))) = [DSuccess 4] /\ finals 0 (mc_trace (c55_conf (CSuccess 8))) = [SigComplete] /\
  observed (mc_trace (c55_conf (CSuccess 7))) = [DError 7] /\ finals 0 (mc_trace (c55_conf (CSuccess 7))) = [SigComplete] /\
  observed (mc_trace (c55_conf (CError 5))) = [DError 5] /\ finals 0 (mc_trace (c55_conf (CError 5))) = [SigError] /\
  In (EGot (Some 8) None) (mc_trace (c55_conf (CSuccess 8))) /\ List.length (mc_subs (c55_conf (CSuccess 8))) = 1%nat.
Proof. vm_compute. repeat split. auto 20. Qed.
Print Assumptions C55_map_delivers_mapped_outcome.
Print Assumptions C55_map_get.
