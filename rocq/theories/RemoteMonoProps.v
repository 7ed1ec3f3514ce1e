(** C104: the mono of a remote call that is awaited or blocked on instead of subscribed. *)
From Verif Require Import Base RemoteMonoModel.
From Coq Require Import List.

Section C104.
Context {V D E : Type}.
Variable tx : V -> D + E.
Notation run := (rm_run tx). Notation ev := (@rev_ V D E). Notation state := (@rmono V D E). Notation op := (@rop V E).
(** *** Specification *)
(** The steps that start the call when none has before. *)
Definition starts (x : op) : bool := match x with Subscribe _ | TypedSubscribe _ | Async => true | _ => false end.
Definition subscribes (x : op) : bool := match x with Subscribe _ | TypedSubscribe _ => true | _ => false end.
Definition is_sent (e : ev) : bool := match e with Sent => true | _ => false end.
(** The number of requests sent. *)
Definition sent (t : list ev) : nat := List.length (filter is_sent t).
(** One for every subscription, and one more if the call was awaited first. *)
Definition expected (xs : list op) : nat :=
  (List.length (filter subscribes xs) + match find starts xs with Some Async => 1 | _ => 0 end)%nat.
(** The steps of a flow that awaits the call and reads its result. *)
Definition awaits (x : op) : Prop := match x with Async | Notify _ | Get | TypedGet | Answer _ => True | _ => False end.
Fixpoint first_answer (xs : list op) : option (V + E) :=
  match xs with [] => None | Answer o :: _ => Some o | _ :: r => first_answer r end.
Definition notifies (c : nat) (x : op) : bool := match x with Notify c' => (c =? c')%nat | _ => false end.
Definition notified (c : nat) (e : ev) : bool := match e with Notified c' _ => (c =? c')%nat | _ => false end.
(** The events that a flow can see agree with the outcome [o]. *)
Definition agrees (o : V + E) (e : ev) : Prop :=
  match e with Notified _ b => b = match o with inl _ => true | inr _ => false end | Got o' => o' = o | TypedGot d => d = match o with inl v => tx v | inr e => inr e end | Sent => True | _ => False end.

(** *** Proofs *)
Lemma run_app : forall xs ys (s : state), run (xs ++ ys) s = match run xs s with Some s' => run ys s' | None => None end.
Proof. induction xs as [|x xs IH]; intros ys s; [reflexivity|]. cbn [app rm_run]. destruct (rm_step tx s x); [apply IH|reflexivity]. Qed.
Lemma run_snoc : forall xs x (s s' : state), run (xs ++ [x]) s = Some s' -> exists m, run xs s = Some m /\ rm_step tx m x = Some s'.
Proof. intros xs x s s' H. rewrite run_app in H. destruct (run xs s) as [m|]; [|discriminate H]. exists m. split; [reflexivity|]. cbn [rm_run] in H. destruct (rm_step tx m x); [exact H|discriminate H]. Qed.
(** What holds in every state: nothing is ever stored in the processor, because an
    answer needs a registered stream, which has a sink. *)
Definition good (s : state) : Prop :=
  rm_success s = None /\ rm_error s = None /\ rm_sink s = rm_current s /\ (rm_subscribed s = true -> rm_current s <> None) /\
  match rm_current s with Some n => (n < List.length (rm_subs s))%nat | None => True end.
Lemma splice_len : forall A (n : nat) (x : A) l, (n < List.length l)%nat -> List.length (firstn n l ++ x :: skipn (S n) l) = List.length l.
Proof. intros A n x l H. rewrite app_length. cbn [List.length]. rewrite firstn_length, skipn_length. lia. Qed.
Lemma splice_nth : forall A (n : nat) (x : A) l, (n < List.length l)%nat -> nth_error (firstn n l ++ x :: skipn (S n) l) n = Some x.
Proof. intros A n x l H. rewrite nth_error_app2; rewrite firstn_length; [|lia]. replace (n - Nat.min n (List.length l))%nat with 0%nat by lia. reflexivity. Qed.
Lemma sink_good : forall n o (s : state), good s -> good (sink_call tx n o s).
Proof.
  intros n o s (A & B & C & F & G). unfold sink_call. destruct (nth_error (rm_subs s) n) as [[w [x|]]|] eqn:Hn; [repeat split; auto| |repeat split; auto].
  unfold traced, good. cbn. split; [exact A|]. split; [exact B|]. split; [exact C|]. split; [exact F|]. destruct (rm_current s); [|exact I]. rewrite splice_len; [exact G|]. apply nth_error_Some. congruence.
Qed.
Lemma inner_eq : forall w (s : state), good s -> inner_subscribe tx w s =
  {| rm_subscribed := rm_subscribed s; rm_subs := rm_subs s ++ [(w, None)]; rm_current := Some (List.length (rm_subs s)); rm_sink := Some (List.length (rm_subs s));
     rm_success := rm_success s; rm_error := rm_error s; rm_callbacks := rm_callbacks s; rm_goroutines := rm_goroutines s; rm_trace := rm_trace s |}.
Proof. intros w s (A & B & _). unfold inner_subscribe. rewrite A, B. reflexivity. Qed.
Lemma inner_good : forall w (s : state), good s -> good (inner_subscribe tx w s).
Proof. intros w s G. rewrite (inner_eq w s G). destruct G as (A & B & _). unfold good. cbn. rewrite app_length. cbn. repeat split; auto; [discriminate|lia]. Qed.
Lemma now_good : forall w (s : state), good s -> good (outer_subscribe tx w s) /\
  outer_subscribe tx w s = {| rm_subscribed := true; rm_subs := rm_subs s ++ [(w, None)]; rm_current := Some (List.length (rm_subs s)); rm_sink := Some (List.length (rm_subs s));
     rm_success := rm_success s; rm_error := rm_error s; rm_callbacks := rm_callbacks s; rm_goroutines := rm_goroutines s; rm_trace := rm_trace s ++ [Sent] |}.
Proof.
  intros w s (A & B & C & F & G). unfold outer_subscribe, inner_subscribe, now_subscribed, traced. cbn. rewrite A, B. split; [|reflexivity].
  unfold good. cbn. rewrite app_length. cbn. repeat split; auto; [discriminate|lia].
Qed.
Lemma step_good : forall x (s s' : state), good s -> rm_step tx s x = Some s' -> good s'.
Proof.
  intros x s s' G H. assert (G' := G). destruct G' as (A & B & C & F & L). destruct x as [k|k| |k|k|j|c| | |o]; cbn [rm_step] in H.
  - injection H as <-. apply now_good. exact G.
  - injection H as <-. apply now_good. exact G.
  - injection H as <-. unfold async. destruct (rm_subscribed s); [exact G|]. apply now_good. exact G.
  - injection H as <-. unfold block. destruct (closed_with s); repeat split; auto.
  - injection H as <-. repeat split; auto.
  - destruct (nth_error (rm_goroutines s) j) as [w|]; [|discriminate H]. injection H as <-. assert (G' : good (without j s)) by (repeat split; auto).
    unfold run_goroutine. destruct w; first [apply inner_good; exact G'|apply now_good; exact G'].
  - injection H as <-. unfold notify. destruct (closed_with s); repeat split; auto.
  - destruct (closed_with s); [|discriminate H]. injection H as <-. repeat split; auto.
  - destruct (closed_with s); [|discriminate H]. injection H as <-. repeat split; auto.
  - destruct (rm_subscribed s) eqn:Es; [|discriminate H]. injection H as <-. unfold answer. rewrite C. specialize (F eq_refl). destruct (rm_current s) eqn:Ec; [|destruct (F eq_refl)]. apply sink_good. exact G.
Qed.
Lemma init_good : good rm_init.
Proof. unfold good, rm_init. cbn. repeat split; auto. discriminate. Qed.
Lemma run_good : forall xs (s s' : state), good s -> run xs s = Some s' -> good s'.
Proof.
  induction xs as [|x xs IH]; intros s s' G H; [injection H as <-; exact G|]. cbn [rm_run] in H. destruct (rm_step tx s x) as [m|] eqn:Em; [|discriminate H]. eapply IH; [|exact H]. eapply step_good; eauto.
Qed.
Lemma sent_app : forall a b, sent (a ++ b) = (sent a + sent b)%nat.
Proof. intros a b. unfold sent. now rewrite filter_app, app_length. Qed.
Lemma tells_quiet : forall w o cs b, sent (tells tx w o ++ map (fun c => Notified c b) cs) = 0%nat.
Proof. intros w o cs b. rewrite sent_app. assert (sent (map (fun c => Notified c b) cs) = 0%nat) by (induction cs; [reflexivity|exact IHcs]). destruct w; cbn; exact H. Qed.
Lemma sink_sent : forall n o (s : state), sent (rm_trace (sink_call tx n o s)) = sent (rm_trace s) /\ rm_subscribed (sink_call tx n o s) = rm_subscribed s /\ rm_goroutines (sink_call tx n o s) = rm_goroutines s.
Proof. intros n o s. unfold sink_call. destruct (nth_error (rm_subs s) n) as [[w [x|]]|]; auto. cbn [traced rm_trace rm_subscribed rm_goroutines]. rewrite sent_app, tells_quiet. auto. Qed.

(** Every subscription sends the request; awaiting sends it only if nothing has
    been sent before.  [Block] of the remote mono itself sends nothing. *)
Theorem C104_requests_sent : forall xs s, run xs rm_init = Some s -> (forall k, ~ In (TypedBlock k) xs) -> sent (rm_trace s) = expected xs.
Proof.
  intros xs. assert (K : forall s, run xs rm_init = Some s -> (forall k, ~ In (TypedBlock k) xs) ->
    sent (rm_trace s) = expected xs /\ rm_subscribed s = existsb starts xs /\ Forall (fun w => exists k, w = Blocked k) (rm_goroutines s)).
  { induction xs as [|x xs IH] using rev_ind; intros s H N.
    - cbn [rm_run] in H. injection H as <-. split; [reflexivity|]. split; [reflexivity|constructor].
    - apply run_snoc in H. destruct H as (m & Hm & H). assert (G : good m) by (eapply run_good; [exact init_good|exact Hm]).
      destruct (IH m Hm) as (I1 & I2 & I3); [intros k Hk; apply (N k); apply in_or_app; left; exact Hk|].
      assert (Ff : find starts (xs ++ [x]) = match find starts xs with Some y => Some y | None => if starts x then Some x else None end).
      { clear. induction xs as [|y ys IHy]; [reflexivity|]. cbn [find app]. destruct (starts y); [reflexivity|exact IHy]. }
      assert (Fe : existsb starts xs = match find starts xs with Some _ => true | None => false end).
      { clear. induction xs as [|y ys IHy]; [reflexivity|]. cbn [existsb find]. destruct (starts y); [reflexivity|exact IHy]. }
      unfold expected. rewrite filter_app, app_length, existsb_app, Ff. unfold expected in I1. rewrite Fe in *.
      destruct x as [k|k| |k|k|j|c| | |o]; cbn [rm_step] in H; cbn [filter subscribes List.length starts existsb orb].
      + injection H as <-. destruct (now_good (Caller k) m G) as (_ & ->). cbn [rm_trace rm_subscribed rm_goroutines]. rewrite sent_app, I1. destruct (find starts xs) as [[]|]; cbn; (split; [lia|split; [reflexivity|exact I3]]).
      + injection H as <-. destruct (now_good (Typed k) m G) as (_ & ->). cbn [rm_trace rm_subscribed rm_goroutines]. rewrite sent_app, I1. destruct (find starts xs) as [[]|]; cbn; (split; [lia|split; [reflexivity|exact I3]]).
      + injection H as <-. unfold async. rewrite I2. destruct (find starts xs) as [y|] eqn:Ey.
        * rewrite I1, I2. split; [destruct y; lia|]. split; [reflexivity|exact I3].
        * destruct (now_good Nobody m G) as (_ & ->). cbn [rm_trace rm_subscribed rm_goroutines]. rewrite sent_app, I1. cbn. split; [lia|]. split; [reflexivity|exact I3].
      + injection H as <-. unfold block. destruct (closed_with m); cbn [traced spawn rm_trace rm_subscribed rm_goroutines]; rewrite ?sent_app, I1, I2; cbn [sent filter is_sent List.length];
          (split; [destruct (find starts xs) as [[]|]; lia|split; [destruct (find starts xs); reflexivity|]]); [exact I3|]. apply Forall_app. split; [exact I3|]. constructor; [eauto|constructor].
      + destruct (N k). apply in_or_app. right. left. reflexivity.
      + destruct (nth_error (rm_goroutines m) j) as [w|] eqn:Ew; [|discriminate H]. injection H as <-.
        assert (W : exists k, w = Blocked k) by (rewrite Forall_forall in I3; apply I3; eapply nth_error_In; exact Ew). destruct W as (k & ->). cbn [run_goroutine].
        assert (Gw : good (without j m)) by (destruct G as (? & ? & ? & ? & ?); repeat split; auto). rewrite (inner_eq _ _ Gw). cbn [without rm_trace rm_subscribed rm_goroutines]. rewrite I1, I2.
        split; [destruct (find starts xs) as [[]|]; lia|split; [destruct (find starts xs); reflexivity|]].
        rewrite Forall_forall in *. intros w Hw. apply I3. apply in_app_or in Hw. destruct Hw as [Hw|Hw]; [rewrite <- (firstn_skipn j (rm_goroutines m)); apply in_or_app; left; exact Hw|].
        rewrite <- (firstn_skipn (S j) (rm_goroutines m)). apply in_or_app. right. exact Hw.
      + injection H as <-. unfold notify. destruct (closed_with m); cbn [traced rm_trace rm_subscribed rm_goroutines]; rewrite ?sent_app, I1, I2; cbn [sent filter is_sent List.length];
          (split; [destruct (find starts xs) as [[]|]; lia|split; [destruct (find starts xs); reflexivity|exact I3]]).
      + destruct (closed_with m); [|discriminate H]. injection H as <-. cbn [traced rm_trace rm_subscribed rm_goroutines]. rewrite sent_app, I1, I2. cbn [sent filter is_sent List.length].
          (split; [destruct (find starts xs) as [[]|]; lia|split; [destruct (find starts xs); reflexivity|exact I3]]).
      + destruct (closed_with m); [|discriminate H]. injection H as <-. cbn [traced rm_trace rm_subscribed rm_goroutines]. rewrite sent_app, I1, I2. cbn [sent filter is_sent List.length].
          (split; [destruct (find starts xs) as [[]|]; lia|split; [destruct (find starts xs); reflexivity|exact I3]]).
      + destruct (rm_subscribed m) eqn:Es; [|discriminate H]. injection H as <-. unfold answer. destruct G as (_ & _ & C & F & _). rewrite C. destruct (rm_current m) eqn:Ec; [|destruct (F Es eq_refl)].
        destruct (sink_sent n o m) as (-> & -> & ->). rewrite I1, Es, <- I2. split; [destruct (find starts xs) as [[]|]; lia|]. split; [reflexivity|exact I3]. }
  intros s H N. destruct (K s H N) as (A & _). exact A.
Qed.
(** [Block] on the mono of a remote call that nobody subscribed or awaited: nothing
    is ever sent, and no [Block] ever returns. *)
Theorem C104_block_never_returns : forall xs s, run xs rm_init = Some s ->
  (forall x, In x xs -> match x with Block _ | Run _ | Notify _ | Get | TypedGet | Answer _ => True | _ => False end) -> rm_trace s = [].
Proof.
  intros xs. assert (K : forall s, run xs rm_init = Some s -> (forall x, In x xs -> match x with Block _ | Run _ | Notify _ | Get | TypedGet | Answer _ => True | _ => False end) ->
    rm_trace s = [] /\ rm_subscribed s = false /\ Forall (fun w => exists k, w = Blocked k) (rm_goroutines s) /\ Forall (fun x => snd x = None) (rm_subs s)).
  { induction xs as [|x xs IH] using rev_ind; intros s H N; [cbn [rm_run] in H; injection H as <-; repeat split; constructor|].
    apply run_snoc in H. destruct H as (m & Hm & H). assert (G : good m) by (eapply run_good; [exact init_good|exact Hm]).
    destruct (IH m Hm) as (I1 & I2 & I3 & I4); [intros y Hy; apply N; apply in_or_app; left; exact Hy|]. specialize (N x ltac:(apply in_or_app; right; left; reflexivity)).
    assert (Cl : closed_with m = None). { unfold closed_with. destruct (rm_current m); [|reflexivity]. destruct (nth_error (rm_subs m) n) as [[w y]|] eqn:En; [|reflexivity]. apply nth_error_In in En. rewrite Forall_forall in I4. exact (I4 _ En). }
    destruct x as [k|k| |k|k|j|c| | |o]; try destruct N; cbn [rm_step] in H.
    - injection H as <-. unfold block. rewrite Cl. cbn [spawn rm_trace rm_subscribed rm_goroutines rm_subs]. repeat split; auto. apply Forall_app. split; [exact I3|]. constructor; [eauto|constructor].
    - destruct (nth_error (rm_goroutines m) j) as [w|] eqn:Ew; [|discriminate H]. injection H as <-.
      assert (W : exists k, w = Blocked k) by (rewrite Forall_forall in I3; apply I3; eapply nth_error_In; exact Ew). destruct W as (k & ->). cbn [run_goroutine].
      assert (Gw : good (without j m)) by (destruct G as (? & ? & ? & ? & ?); repeat split; auto). rewrite (inner_eq _ _ Gw). cbn [without rm_trace rm_subscribed rm_goroutines rm_subs].
      repeat split; auto.
      + rewrite Forall_forall in *. intros w Hw. apply I3. apply in_app_or in Hw. destruct Hw as [Hw|Hw]; [rewrite <- (firstn_skipn j (rm_goroutines m)); apply in_or_app; left; exact Hw|].
        rewrite <- (firstn_skipn (S j) (rm_goroutines m)). apply in_or_app. right. exact Hw.
      + apply Forall_app. split; [exact I4|]. constructor; [reflexivity|constructor].
    - injection H as <-. unfold notify. rewrite Cl. repeat split; auto.
    - rewrite Cl in H. discriminate H.
    - rewrite Cl in H. discriminate H.
    - rewrite I2 in H. discriminate H. }
  intros s H N. destruct (K s H N) as (A & _). exact A.
Qed.
(** A flow that awaits a call: the request is sent once however often it is
    awaited; when the first answer has come, every notification asked for has been
    given once, [Get] gives that answer and has never given another.  Before the
    answer no notification is given and [Get] is not possible. *)
Theorem C104_awaited : forall xs s, run xs rm_init = Some s -> Forall awaits xs -> In Async xs ->
  sent (rm_trace s) = 1%nat /\
  match first_answer xs with
  | Some o => (forall c, List.length (filter (notified c) (rm_trace s)) = List.length (filter (notifies c) xs)) /\ Forall (agrees o) (rm_trace s) /\
      (exists s', run (xs ++ [Get]) rm_init = Some s' /\ rm_trace s' = rm_trace s ++ [Got o]) /\
      (exists s', run (xs ++ [TypedGet]) rm_init = Some s' /\ rm_trace s' = rm_trace s ++ [TypedGot (match o with inl v => tx v | inr e => inr e end)])
  | None => rm_trace s = [Sent] /\ run (xs ++ [Get]) rm_init = None
  end.
Proof.
  intros xs.
  assert (K : forall s, run xs rm_init = Some s -> Forall awaits xs -> rm_goroutines s = [] /\ rm_subscribed s = existsb starts xs /\
    match first_answer xs with
    | Some o => existsb starts xs = true /\ rm_subs s = [(Nobody, Some o)] /\ rm_current s = Some 0%nat /\ sent (rm_trace s) = 1%nat /\ Forall (agrees o) (rm_trace s) /\ (forall c, List.length (filter (notified c) (rm_trace s)) = List.length (filter (notifies c) xs))
    | None => (if existsb starts xs then rm_subs s = [(Nobody, None)] /\ rm_current s = Some 0%nat /\ rm_trace s = [Sent] else rm_subs s = [] /\ rm_current s = None /\ rm_trace s = []) /\
        (forall c, List.length (filter (Nat.eqb c) (rm_callbacks s)) = List.length (filter (notifies c) xs))
    end).
  { induction xs as [|x xs IH] using rev_ind; intros s H N; [cbn [rm_run] in H; injection H as <-; repeat split; constructor|].
    apply run_snoc in H. destruct H as (m & Hm & H). assert (G : good m) by (eapply run_good; [exact init_good|exact Hm]). apply Forall_app in N. destruct N as [N Nx]. apply Forall_inv in Nx.
    destruct (IH m Hm N) as (I0 & I1 & I2). rewrite existsb_app.
    assert (Fa : first_answer (xs ++ [x]) = match first_answer xs with Some o => Some o | None => match x with Answer o => Some o | _ => None end end).
    { clear. induction xs as [|y ys IHy]; [destruct x; reflexivity|]. cbn [app first_answer]. destruct y; auto. }
    assert (Fn : forall c, List.length (filter (notifies c) (xs ++ [x])) = (List.length (filter (notifies c) xs) + List.length (filter (notifies c) [x]))%nat) by (intros c; rewrite filter_app, app_length; reflexivity).
    assert (Ft : forall c (a b : list ev), List.length (filter (notified c) (a ++ b)) = (List.length (filter (notified c) a) + List.length (filter (notified c) b))%nat) by (intros c a b; rewrite filter_app, app_length; reflexivity).
    rewrite Fa. destruct (first_answer xs) as [o|] eqn:Ea.
    - destruct I2 as (I2 & I3 & I4 & I5 & I6 & I7). rewrite I2 in *. cbn [orb].
      assert (Cl : closed_with m = Some o) by (unfold closed_with; rewrite I4, I3; reflexivity).
      destruct x as [k|k| |k|k|j|c| | |o']; try destruct Nx; cbn [rm_step] in H.
      + injection H as <-. unfold async. rewrite I1. repeat split; auto. intros c. rewrite Fn, I7. cbn. lia.
      + injection H as <-. unfold notify. rewrite Cl. cbn [traced rm_trace rm_subscribed rm_goroutines rm_subs rm_current]. repeat split; auto; [rewrite sent_app, I5; reflexivity| |].
        * apply Forall_app. split; [exact I6|]. constructor; [destruct o; reflexivity|constructor].
        * intros c'. rewrite Ft, Fn, I7. cbn [filter notifies notified]. destruct (c' =? c)%nat; cbn; lia.
      + rewrite Cl in H. injection H as <-. cbn [traced rm_trace rm_subscribed rm_goroutines rm_subs rm_current]. repeat split; auto; [rewrite sent_app, I5; reflexivity| |].
        * apply Forall_app. split; [exact I6|]. constructor; [reflexivity|constructor].
        * intros c'. rewrite Ft, Fn, I7. cbn. lia.
      + rewrite Cl in H. injection H as <-. cbn [traced rm_trace rm_subscribed rm_goroutines rm_subs rm_current]. repeat split; auto; [rewrite sent_app, I5; reflexivity| |].
        * apply Forall_app. split; [exact I6|]. constructor; [destruct o; reflexivity|constructor].
        * intros c'. rewrite Ft, Fn, I7. cbn. lia.
      + rewrite I1 in H. injection H as <-. unfold answer. destruct G as (_ & _ & C & _). rewrite C, I4. unfold sink_call. rewrite I3. cbn [nth_error]. repeat split; auto. intros c'. rewrite Fn, I7. cbn. lia.
    - destruct I2 as (I2 & I3). destruct (existsb starts xs) eqn:Es; cbn [orb].
      + destruct I2 as (J1 & J2 & J3). assert (Cl : closed_with m = None) by (unfold closed_with; rewrite J2, J1; reflexivity).
        destruct x as [k|k| |k|k|j|c| | |o']; try destruct Nx; cbn [rm_step] in H.
        * injection H as <-. unfold async. rewrite I1. repeat split; auto. intros c. rewrite Fn, I3. cbn. lia.
        * injection H as <-. unfold notify. rewrite Cl. cbn [rm_trace rm_subscribed rm_goroutines rm_subs rm_current rm_callbacks]. repeat split; auto.
          intros c'. rewrite filter_app, app_length, Fn, I3. cbn [filter notifies]. destruct (c' =? c)%nat; cbn; lia.
        * rewrite Cl in H. discriminate H.
        * rewrite Cl in H. discriminate H.
        * rewrite I1 in H. injection H as <-. unfold answer. destruct G as (_ & _ & C & _). rewrite C, J2. unfold sink_call. rewrite J1. cbn [nth_error traced rm_trace rm_subscribed rm_goroutines rm_subs rm_current tells app firstn skipn]. rewrite J3.
          assert (Q : forall cs b, sent (map (fun c => Notified c b) cs) = 0%nat) by (intros cs b; induction cs; [reflexivity|exact IHcs]).
          repeat split; auto.
          -- rewrite sent_app, Q. reflexivity.
          -- constructor; [exact I|]. apply Forall_forall. intros e He. apply in_map_iff in He. destruct He as (c & <- & _). destruct o'; reflexivity.
          -- intros c. rewrite Ft, Fn, <- I3. cbn [filter notified notifies List.length Nat.add]. rewrite Nat.add_0_r. generalize (signal_of o'). intros b. clear. induction (rm_callbacks m) as [|y l IHl]; [reflexivity|]. cbn [map filter notified]. destruct (c =? y)%nat; cbn [List.length]; rewrite IHl; reflexivity.
      + destruct I2 as (J1 & J2 & J3). assert (Cl : closed_with m = None) by (unfold closed_with; rewrite J2; reflexivity).
        destruct x as [k|k| |k|k|j|c| | |o']; try destruct Nx; cbn [rm_step] in H.
        * injection H as <-. unfold async. rewrite I1. destruct (now_good Nobody m G) as (_ & ->). cbn [rm_trace rm_subscribed rm_goroutines rm_subs rm_current rm_callbacks starts existsb orb]. rewrite J1, J3. repeat split; auto. intros c. rewrite Fn, I3. cbn. lia.
        * injection H as <-. unfold notify. rewrite Cl. cbn [rm_trace rm_subscribed rm_goroutines rm_subs rm_current rm_callbacks starts existsb orb]. repeat split; auto.
          intros c'. rewrite filter_app, app_length, Fn, I3. cbn [filter notifies]. destruct (c' =? c)%nat; cbn; lia.
        * rewrite Cl in H. discriminate H.
        * rewrite Cl in H. discriminate H.
        * rewrite I1 in H. discriminate H. }
  intros s H N Ha. destruct (K s H N) as (_ & I1 & I2).
  assert (Es : existsb starts xs = true) by (apply existsb_exists; exists Async; split; [exact Ha|reflexivity]).
  rewrite Es in *. destruct (first_answer xs) as [o|].
  - destruct I2 as (_ & J1 & J2 & J3 & J4 & J5). split; [exact J3|]. split; [exact J5|]. split; [exact J4|]. split.
    + rewrite run_app, H. cbn [rm_run rm_step]. unfold closed_with. rewrite J2, J1. cbn [nth_error]. eexists. split; [reflexivity|]. reflexivity.
    + rewrite run_app, H. cbn [rm_run rm_step]. unfold closed_with. rewrite J2, J1. cbn [nth_error]. eexists. split; [reflexivity|]. reflexivity.
  - destruct I2 as ((J1 & J2 & J3) & _). rewrite J3. split; [reflexivity|]. split; [reflexivity|]. rewrite run_app, H. cbn [rm_run rm_step]. unfold closed_with. rewrite J2, J1. reflexivity.
Qed.

(** While nothing is answered, notifications and awaiting change nothing that can be seen. *)
Definition waits (x : op) : Prop := match x with Async | Notify _ => True | _ => False end.
Lemma waiting : forall mid (s s' : state), Forall waits mid -> good s -> rm_subscribed s = true -> closed_with s = None -> run mid s = Some s' ->
  rm_trace s' = rm_trace s /\ rm_subs s' = rm_subs s /\ rm_current s' = rm_current s /\ rm_subscribed s' = true.
Proof.
  induction mid as [|x mid IH]; intros s s' F G Su Cl H; [injection H as <-; auto|]. cbn [rm_run] in H. destruct (rm_step tx s x) as [m|] eqn:Em; [|discriminate H].
  pose proof (step_good x s m G Em) as Gm. pose proof (Forall_inv F) as Fx. apply Forall_inv_tail in F.
  assert (K : rm_trace m = rm_trace s /\ rm_subs m = rm_subs s /\ rm_current m = rm_current s /\ rm_subscribed m = true).
  { destruct x; try destruct Fx; cbn [rm_step] in Em; injection Em as <-; [unfold async; rewrite Su|unfold notify; rewrite Cl]; cbn; auto. }
  destruct K as (K1 & K2 & K3 & K4). destruct (IH m s' F Gm K4 ltac:(unfold closed_with in *; rewrite K2, K3; exact Cl) H) as (A & B & C & Q). rewrite A, B, C. auto.
Qed.
Lemma answered_last : forall w o (s s' : state), good s -> rm_subscribed s = true -> rm_current s = Some (pred (List.length (rm_subs s))) -> (exists l, rm_subs s = l ++ [(w, None)]) ->
  rm_step tx s (Answer o) = Some s' -> exists cs, rm_trace s' = rm_trace s ++ tells tx w o ++ map (fun c => Notified c (match o with inl _ => true | inr _ => false end)) cs.
Proof.
  intros w o s s' (_ & _ & C & _) Su Cu (l & L) H. cbn [rm_step] in H. rewrite Su in H. injection H as <-. unfold answer. rewrite C, Cu. unfold sink_call.
  replace (nth_error (rm_subs s) (pred (List.length (rm_subs s)))) with (Some (w, @None (V + E))).
  2: { rewrite L, app_length. cbn [List.length]. replace (pred (List.length l + 1)) with (List.length l) by lia. rewrite nth_error_app2 by lia. rewrite Nat.sub_diag. reflexivity. }
  exists (rm_callbacks s). cbn [traced rm_trace]. destruct o; reflexivity.
Qed.
(** [Block] of a typed call, whatever happened before (even when the call has been
    answered already): the request is sent once more, and [Block] returns the
    answer to it, decoded. *)
Theorem C104_typed_block : forall xs s k mid o s', run xs rm_init = Some s -> rm_goroutines s = [] -> Forall waits mid ->
  run ([TypedBlock k; Run 0] ++ mid ++ [Answer o]) s = Some s' ->
  exists cs, rm_trace s' = rm_trace s ++ [Sent; TypedReturned k (match o with inl v => tx v | inr e => inr e end)] ++ map (fun c => Notified c (match o with inl _ => true | inr _ => false end)) cs.
Proof.
  intros xs s k mid o s' H0 Hg F H. assert (G : good s) by (eapply run_good; [exact init_good|exact H0]).
  rewrite app_assoc in H. apply run_snoc in H. destruct H as (m & Hm & H). cbn [app rm_run rm_step] in Hm. cbn [spawn rm_goroutines] in Hm. rewrite Hg in Hm. cbn [app nth_error run_goroutine] in Hm.
  set (s1 := without 0 (spawn (TypedBlocked k) s)) in Hm. assert (G1 : good s1) by (destruct G as (? & ? & ? & ? & ?); repeat split; auto).
  destruct (now_good (TypedBlocked k) s1 G1) as (G2 & E2). set (s2 := outer_subscribe tx (TypedBlocked k) s1) in *.
  assert (Cl : closed_with s2 = None) by (unfold closed_with; rewrite E2; cbn [rm_current rm_subs]; rewrite nth_error_app2 by lia; rewrite Nat.sub_diag; reflexivity).
  destruct (waiting mid s2 m F G2 ltac:(rewrite E2; reflexivity) Cl Hm) as (T & S & C & Su).
  destruct (answered_last (TypedBlocked k) o m s' ltac:(eapply run_good; [exact G2|exact Hm]) Su) as (cs & T'); [| |exact H|].
  - rewrite C, S, E2. cbn [rm_current rm_subs]. rewrite app_length. cbn [List.length]. f_equal. lia.
  - exists (rm_subs s1). rewrite S, E2. reflexivity.
  - exists cs. rewrite T', T, E2. cbn [rm_trace tells]. rewrite <- app_assoc. destruct o; reflexivity.
Qed.
(** [Block] of a remote call that was started and is not answered: if its goroutine
    runs before the answer, it returns the answer, and the request is not sent again. *)
Theorem C104_block_in_time : forall xs s k mid o s', run xs rm_init = Some s -> rm_goroutines s = [] -> rm_subscribed s = true -> run (xs ++ [Get]) rm_init = None -> Forall waits mid ->
  run ([Block k; Run 0] ++ mid ++ [Answer o]) s = Some s' ->
  exists cs, rm_trace s' = rm_trace s ++ [Returned k o] ++ map (fun c => Notified c (match o with inl _ => true | inr _ => false end)) cs.
Proof.
  intros xs s k mid o s' H0 Hg Su0 Ng F H. assert (G : good s) by (eapply run_good; [exact init_good|exact H0]).
  assert (Cl0 : closed_with s = None) by (rewrite run_app, H0 in Ng; cbn [rm_run rm_step] in Ng; destruct (closed_with s); [discriminate Ng|reflexivity]).
  rewrite app_assoc in H. apply run_snoc in H. destruct H as (m & Hm & H). cbn [app rm_run rm_step] in Hm. unfold block in Hm. rewrite Cl0 in Hm. cbn [spawn rm_goroutines] in Hm. rewrite Hg in Hm. cbn [app nth_error run_goroutine] in Hm.
  set (s1 := without 0 (spawn (Blocked k) s)) in Hm. assert (G1 : good s1) by (destruct G as (? & ? & ? & ? & ?); repeat split; auto).
  pose proof (inner_good (Blocked k) s1 G1) as G2. pose proof (inner_eq (Blocked k) s1 G1) as E2. set (s2 := inner_subscribe tx (Blocked k) s1) in *.
  assert (Cl : closed_with s2 = None) by (unfold closed_with; rewrite E2; cbn [rm_current rm_subs]; rewrite nth_error_app2 by lia; rewrite Nat.sub_diag; reflexivity).
  destruct (waiting mid s2 m F G2 ltac:(rewrite E2; exact Su0) Cl Hm) as (T & S & C & Su).
  destruct (answered_last (Blocked k) o m s' ltac:(eapply run_good; [exact G2|exact Hm]) Su) as (cs & T'); [| |exact H|].
  - rewrite C, S, E2. cbn [rm_current rm_subs]. rewrite app_length. cbn [List.length]. f_equal. lia.
  - exists (rm_subs s1). rewrite S, E2. reflexivity.
  - exists cs. rewrite T', T, E2. reflexivity.
Qed.
(** After the answer [Block] returns it at once. *)
Theorem C104_block_after : forall xs s k o s', run (xs ++ [Get]) rm_init = Some s -> rm_trace s = rm_trace s' ++ [Got o] -> run xs rm_init = Some s' ->
  exists t, run (xs ++ [Block k]) rm_init = Some t /\ rm_trace t = rm_trace s' ++ [Returned k o].
Proof.
  intros xs s k o s' H T H'. rewrite run_app, H' in *. cbn [rm_run rm_step] in *. unfold block. destruct (closed_with s') as [o'|]; [|discriminate H]. injection H as <-. cbn [traced rm_trace] in T.
  apply app_inv_head in T. injection T as ->. eexists. split; [reflexivity|]. reflexivity.
Qed.
End C104.
(** If the answer comes between the test in [Block] and its goroutine, [Block] waits
    for ever although the call was answered, and [Get], which gave the answer before,
    panics from then on. *)
Theorem C104_block_race_refuted : forall V D E (tx : V -> D + E) (o : V + E) k,
  (exists s, rm_run tx [Async; Block k; Answer o; Get] rm_init = Some s /\ rm_trace s = [Sent; Got o]) /\
  (exists s, rm_run tx [Async; Block k; Answer o; Run 0] rm_init = Some s) /\
  (forall later s, Forall (fun x => match x with Async | Notify _ | Get | TypedGet => True | _ => False end) later ->
    rm_run tx ([Async; Block k; Answer o; Run 0] ++ later) rm_init = Some s -> rm_trace s = [Sent] /\ ~ In Get later).
Proof.
  intros V D E tx o k. split; [eexists; split; [reflexivity|reflexivity]|]. split; [eexists; reflexivity|]. intros later s F H. rewrite run_app in H.
  destruct (rm_run tx [Async; Block k; Answer o; Run 0] rm_init) as [m|] eqn:Em; [|discriminate H].
  assert (K : rm_subscribed m = true /\ closed_with m = None /\ rm_trace m = [Sent]) by (cbn in Em; injection Em as <-; cbn; auto). clear Em. revert m K H. induction later as [|x later IH]; intros m (K1 & K2 & K3) H.
  - injection H as <-. split; [exact K3|intros []].
  - cbn [rm_run] in H. destruct (rm_step tx m x) as [m'|] eqn:Em; [|discriminate H]. pose proof (Forall_inv F) as Fx. apply Forall_inv_tail in F.
    destruct x; try destruct Fx; cbn [rm_step] in Em.
    + injection Em as <-. unfold async in H. rewrite K1 in H. destruct (IH F m ltac:(auto) H) as (A & B). split; [exact A|]. intros [Q|Q]; [discriminate Q|exact (B Q)].
    + injection Em as <-. unfold notify in H. rewrite K2 in H. pose proof (fun K => IH F _ K H) as Z. destruct Z as (A & B); [split; [exact K1|split; [exact K2|exact K3]]|]. split; [exact A|]. intros [Q|Q]; [discriminate Q|exact (B Q)].
    + rewrite K2 in Em. discriminate Em.
    + rewrite K2 in Em. discriminate Em.
Qed.
(** A flow that awaits a call twice over and reads it; two blocked goroutines; a
    subscription after awaiting. *)
Definition C104_tx (v : nat) : nat + nat := if (v =? 0)%nat then inr 9%nat else inl (v + 1)%nat.
Example C104_example :
  (exists s, rm_run C104_tx [Notify 1; Async; Notify 2; Async; Answer (inl 7%nat); Notify 3; Get; TypedGet; Answer (inl 8%nat); Get] rm_init = Some s /\
    rm_trace s = [Sent; Notified 1 true; Notified 2 true; Notified 3 true; Got (inl 7%nat); TypedGot (inl 8%nat); Got (inl 7%nat)]) /\
  (exists s, rm_run C104_tx [Block 1; Notify 4; Run 0; Block 2; Run 0] rm_init = Some s /\ rm_trace s = []) /\
  (exists s, rm_run C104_tx [Async; Answer (inl 7%nat); TypedBlock 1; Run 0; Notify 2; Answer (inl 0%nat)] rm_init = Some s /\
    rm_trace s = [Sent; Sent; TypedReturned 1 (inr 9%nat); Notified 2 true]) /\
  (exists s, rm_run C104_tx [Async; Subscribe 5; Block 1; Run 0; Notify 3; Answer (inr 4%nat)] rm_init = Some s /\ rm_trace s = [Sent; Sent; Returned 1 (inr 4%nat); Notified 3 false]) /\
  (exists s, rm_run C104_tx [Async; Answer (inl 7%nat); Block 1] rm_init = Some s /\ rm_trace s = [Sent; Returned 1 (inl 7%nat)]).
Proof. repeat split; vm_compute; eexists; split; reflexivity. Qed.
Print Assumptions C104_requests_sent.
Print Assumptions C104_block_never_returns.
Print Assumptions C104_awaited.
Print Assumptions C104_typed_block.
Print Assumptions C104_block_in_time.
Print Assumptions C104_block_after.
Print Assumptions C104_block_race_refuted.
