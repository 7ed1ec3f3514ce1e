(** C65: closing an instance. *)
From Verif Require Import Base BaseFacts InvokeModel HostModel.

(** ** C65 *)
(** The kinds of requests that are counted and finished exactly once; at most once. *)
Definition once (k : kind) (o : outcome) : Prop :=
  match k, o with
  | FNF, Served _ _ => True
  | FNF, _ => False
  | _, BadMetadata => False
  | RS, NotFound => False
  | RC, Served _ cancels => cancels = 0%nat
  | _, _ => True
  end.
Definition at_most_once (k : kind) (o : outcome) : Prop := match k, o with RC, Served _ cancels => cancels = 0%nat | _, _ => True end.
(** Requests are accepted before Close is called only, and of the kind [ok];
    no goroutine is inside [reduceActiveRequests] when Close is called. *)
Definition orderly (ok : kind -> outcome -> Prop) (l : list action) : Prop :=
  (forall a k o b, l = a ++ AAccept k o :: b -> in_close (hacts a inst_init) = CNone /\ ok k o) /\
  (forall a b, l = a ++ AClose :: b -> in_close (hacts a inst_init) = CNone -> Forall (fun t => th_red t = None) (in_threads (hacts a inst_init))).
(** Requests not yet finished: their goroutine has not decremented the counter. *)
Definition finishing (t : thread) : bool := existsb (fun i => match i with IReduce => true | _ => false end) (th_todo t).
Definition unfinished (s : inst) : Z := Z.of_nat (List.length (filter finishing (in_threads s))).
Definition reducing (s : inst) : nat := List.length (filter (fun t => match th_red t with None => false | _ => true end) (in_threads s)).

Lemma hacts_app : forall a b s, hacts (a ++ b) s = hacts b (hacts a s).
Proof. induction a; intros; cbn; auto. Qed.
Lemma orderly_prefix : forall ok l x, orderly ok (l ++ [x]) -> orderly ok l /\
  (forall k o, x = AAccept k o -> in_close (hacts l inst_init) = CNone /\ ok k o) /\
  (x = AClose -> in_close (hacts l inst_init) = CNone -> Forall (fun t => th_red t = None) (in_threads (hacts l inst_init))).
Proof.
  intros ok l x [A B]. split; [split|split].
  - intros a k o b E. apply (A a k o (b ++ [x])). rewrite E, <- app_assoc. reflexivity.
  - intros a b E. apply (B a (b ++ [x])). rewrite E, <- app_assoc. reflexivity.
  - intros k o ->. apply (A l k o []). reflexivity.
  - intros ->. apply (B l []). reflexivity.
Qed.
(** A thread's program: some sends, then at most one reduction, nothing after it. *)
Inductive tidy : list instr -> Prop :=
| tidy_nil : tidy []
| tidy_red : tidy [IReduce]
| tidy_send l : tidy l -> tidy (ISend :: l).
(** [r] requests were accepted that will never be finished; [loose]: some
    goroutine may send without being waited for. *)
Record close_inv (loose : bool) (r : Z) (s : inst) : Prop := {
  ci_r : (0 <= r)%Z;
  ci_nopanic : loose = false -> in_panic s = false;
  ci_panic : in_panic s = true -> in_close s = CReturned;
  ci_count : in_active s = (unfinished s + r)%Z;
  ci_tidy : forall t, In t (in_threads s) -> tidy (th_todo t) /\ (th_red t <> None -> th_todo t = []) /\
    (loose = false -> th_todo t <> [] -> finishing t = true \/ (0 < r)%Z);
  ci_closing : in_closing s = match in_close s with CNone => false | _ => true end;
  ci_chans : in_chans s = match in_close s with CReturned => true | _ => false end;
  ci_none : in_close s = CNone -> in_closed s = false /\ forall t, In t (in_threads s) -> th_red t <> Some RClose;
  ci_one : in_close s <> CNone -> (reducing s + (if in_closed s then 1 else 0) <= 1)%nat;
  ci_zero : in_close s <> CNone -> (reducing s + (if in_closed s then 1 else 0) = 1)%nat -> in_active s = 0%Z;
  ci_wait : in_close s = CWaiting -> (0 < in_active s)%Z \/ (reducing s + (if in_closed s then 1 else 0) = 1)%nat;
  ci_gone : in_close s = CGo \/ in_close s = CReturned -> in_active s = 0%Z }.

Definition is_red (t : thread) : bool := match th_red t with None => false | _ => true end.
Definition b2n (b : bool) : nat := if b then 1 else 0.
Lemma put_split : forall i t s, nth_error (in_threads s) i = Some t ->
  exists a b, in_threads s = a ++ t :: b /\ forall t' , in_threads (put_thread i t' s) = a ++ t' :: b.
Proof.
  intros i t s H. apply nth_error_split in H. destruct H as (a & b & E & <-). exists a, b. split; [exact E|]. intros t'. cbn [put_thread in_threads]. rewrite E.
  rewrite firstn_app, Nat.sub_diag, firstn_all. cbn [firstn]. rewrite app_nil_r. do 2 f_equal. clear. induction a; [reflexivity|exact IHa].
Qed.
Lemma filter_len_mid : forall (f : thread -> bool) a t b, List.length (filter f (a ++ t :: b)) = (List.length (filter f (a ++ b)) + b2n (f t))%nat.
Proof. intros. rewrite !filter_app, !app_length. cbn [filter]. destruct (f t); cbn [List.length b2n]; lia. Qed.
Lemma tidy_send_inv : forall l, tidy (ISend :: l) -> tidy l.
Proof. intros l H. now inversion H. Qed.
Lemma tidy_red_inv : forall l, tidy (IReduce :: l) -> l = [].
Proof. intros l H. now inversion H. Qed.
Lemma unfinished_pos : forall s, (0 <= unfinished s)%Z.
Proof. intros. unfold unfinished. lia. Qed.

(** Changing one thread. *)
Lemma close_inv_put : forall loose r s i t t' n c, close_inv loose r s -> nth_error (in_threads s) i = Some t ->
  in_panic s = false ->
  tidy (th_todo t') -> (th_red t' <> None -> th_todo t' = []) -> (loose = false -> th_todo t' <> [] -> finishing t' = true \/ (0 < r)%Z) ->
  (n = in_active s - Z.of_nat (b2n (finishing t)) + Z.of_nat (b2n (finishing t')))%Z ->
  (in_close s = CNone -> c = false /\ th_red t' <> Some RClose) ->
  (in_close s <> CNone -> (is_red t = true /\ b2n (is_red t) + b2n (in_closed s) = b2n (is_red t') + b2n c)%nat /\ n = in_active s \/
     (is_red t = false /\ is_red t' = false /\ c = in_closed s /\ (n = in_active s \/ n <> 0)%Z /\ (n <= in_active s)%Z /\ (n <> in_active s -> 0 < n)%Z) \/
     (is_red t = false /\ is_red t' = true /\ c = in_closed s /\ in_active s = 1 /\ n = 0)%Z) ->
  close_inv loose r {| in_active := n; in_closing := in_closing s; in_closed := c; in_chans := in_chans s; in_close := in_close s;
    in_threads := in_threads (put_thread i t' s); in_panic := in_panic s |}.
Proof.
  intros loose r s i t t' n c [R NP PR Ct Td Cl Ch No One Ze Wt Go] Hi Pn T1 T2 T3 Hn H0 H1.
  destruct (put_split i t s Hi) as (a & b & E & E'). specialize (E' t').
  assert (U : forall s', in_threads s' = a ++ t' :: b -> (unfinished s' = unfinished s - Z.of_nat (b2n (finishing t)) + Z.of_nat (b2n (finishing t')))%Z).
  { intros s' Es. unfold unfinished. rewrite Es, E, !filter_len_mid. lia. }
  assert (D : forall s', in_threads s' = a ++ t' :: b -> (reducing s' + b2n (is_red t) = reducing s + b2n (is_red t'))%nat).
  { intros s' Es. unfold reducing. change (fun t => match th_red t with None => false | _ => true end) with is_red. rewrite Es, E, !filter_len_mid. lia. }
  set (s' := {| in_active := n; in_closing := _; in_closed := c; in_chans := _; in_close := _; in_threads := _; in_panic := _ |}).
  specialize (U s' E'). specialize (D s' E'). pose proof (unfinished_pos s').
  assert (Di : (b2n (is_red t) <= reducing s)%nat). { unfold reducing. change (fun t => match th_red t with None => false | _ => true end) with is_red. rewrite E, filter_len_mid. lia. }
  change (if in_closed s then 1%nat else 0%nat) with (b2n (in_closed s)) in *.
  assert (In' : forall t0, In t0 (in_threads s') -> In t0 (in_threads s) \/ t0 = t').
  { intros t0 Ht. cbn [in_threads s'] in Ht. rewrite E' in Ht. rewrite E. apply in_app_iff in Ht. destruct Ht as [Ht|[Ht|Ht]]; [left|right; auto|left]; apply in_app_iff; [left|right; right]; exact Ht. }
  constructor; cbn [in_active in_closing in_closed in_chans in_close in_panic s']; fold s'; auto.
  - lia.
  - intros t0 Ht. destruct (In' t0 Ht) as [Hs| ->]; [exact (Td t0 Hs)|auto].
  - intros X. destruct (No X) as [_ N2]. destruct (H0 X) as [-> H0']. split; [reflexivity|]. intros t0 Ht. destruct (In' t0 Ht) as [Hs| ->]; [exact (N2 t0 Hs)|exact H0'].
  - intros X. specialize (One X). specialize (Ze X). change (if c then 1%nat else 0%nat) with (b2n c). destruct (H1 X) as [[[Ra Rb] Rc]|[(Ra & Rb & -> & _)|(Ra & Rb & -> & Rc & _)]].
    + lia.
    + rewrite Ra, Rb in D. cbn [b2n] in D. lia.
    + rewrite Ra, Rb in D. cbn [b2n] in D. destruct (reducing s + b2n (in_closed s))%nat as [|[|]] eqn:Es; try lia.
  - intros X. specialize (One X). specialize (Ze X). change (if c then 1%nat else 0%nat) with (b2n c). intros Y. destruct (H1 X) as [[[Ra Rb] Rc]|[(Ra & Rb & -> & Rc & Rd & Re)|(Ra & Rb & -> & Rc & Rd)]].
    + rewrite Rc. apply Ze. lia.
    + rewrite Ra, Rb in D. cbn [b2n] in D. assert (Z : in_active s = 0%Z) by (apply Ze; lia). destruct (Z.eq_dec n (in_active s)); [congruence|]. specialize (Re n0). lia.
    + exact Rd.
  - intros X. assert (X' : in_close s <> CNone) by congruence. specialize (One X'). specialize (Ze X'). change (if c then 1%nat else 0%nat) with (b2n c).
    destruct (H1 X') as [[[Ra Rb] Rc]|[(Ra & Rb & -> & Rc & Rd & Re)|(Ra & Rb & -> & Rc & Rd)]].
    + destruct (Wt X) as [W|W]; [left; lia|right; lia].
    + rewrite Ra, Rb in D. cbn [b2n] in D. destruct (Wt X) as [W|W]; [left|right; lia]. destruct (Z.eq_dec n (in_active s)); [congruence|]. auto.
    + right. rewrite Ra, Rb in D. cbn [b2n] in D. destruct (reducing s + b2n (in_closed s))%nat as [|[|]] eqn:Es; try lia.
  - intros X. assert (X' : in_close s <> CNone) by (destruct X; congruence). specialize (Go X).
    destruct (H1 X') as [[[Ra Rb] Rc]|[(Ra & Rb & -> & Rc & Rd & Re)|(Ra & Rb & -> & Rc & Rd)]]; [congruence| |lia].
    destruct (Z.eq_dec n (in_active s)); [congruence|]. specialize (Re n0). lia.
Qed.
Definition stuck (k : kind) (o : outcome) : bool :=
  match k, o with RR, BadMetadata | RS, (BadMetadata | NotFound) | RC, BadMetadata => true | _, _ => false end.
Lemma tidy_sends : forall n l, tidy l -> tidy (repeat ISend n ++ l).
Proof. induction n; cbn; intros; [assumption|constructor; auto]. Qed.
Lemma finishing_sends : forall n, finishing (spawn (repeat ISend n ++ [ISend; IReduce])) = true.
Proof. intros. unfold finishing. cbn [spawn th_todo]. rewrite existsb_app. cbn. apply orb_true_r. Qed.
Lemma work_shape : forall k o, at_most_once k o -> exists w, work k o = [w] /\ tidy w /\
  Z.of_nat (b2n (finishing (spawn w))) = (match k with FNF => 0 | _ => 1 end - Z.of_nat (b2n (stuck k o)))%Z /\
  (once k o -> w <> [] -> finishing (spawn w) = true).
Proof.
  intros k o H. assert (T : tidy [ISend; IReduce]) by repeat constructor.
  destruct o as [| |n m]; [| |cbn in H].
  - exists [ISend]. split; [destruct k; reflexivity|]. split; [repeat constructor|]. split; [destruct k; reflexivity|]. destruct k; intros [].
  - destruct k; [exists [ISend; IReduce]|exists [ISend]|exists [ISend]|exists [ISend; IReduce]]; (split; [reflexivity|]); (split; [repeat constructor|]); (split; [reflexivity|]); intros X Y; try reflexivity; destruct X.
  - destruct k; cbn [work].
    + exists [ISend; IReduce]. split; [reflexivity|]. split; [exact T|]. split; reflexivity.
    + exists []. split; [reflexivity|]. split; [constructor|]. split; [reflexivity|]. intros _ X. now destruct X.
    + eexists. split; [reflexivity|]. split; [now apply tidy_sends|]. rewrite finishing_sends. split; reflexivity.
    + cbn in H. subst m. eexists. split; [reflexivity|]. split; [now apply tidy_sends|]. rewrite finishing_sends. split; reflexivity.
Qed.
Lemma close_inv_step : forall loose r s a, close_inv loose r s -> in_panic s = false ->
  (forall k o, a = AAccept k o -> in_close s = CNone /\ at_most_once k o /\ (loose = false -> once k o)) ->
  (a = AClose -> in_close s = CNone -> Forall (fun t => th_red t = None) (in_threads s)) ->
  close_inv loose (r + match a with AAccept k o => Z.of_nat (b2n (stuck k o)) | _ => 0 end) (hact a s).
Proof.
  intros loose r s a I Pn Ha Hc. unfold hact. rewrite Pn. destruct a as [k o|i|].
  - destruct (Ha k o eq_refl) as (Hn & Hm & Ho). destruct (work_shape k o Hm) as (w & Hw & Tw & Fw & Ow). rewrite Hw. cbn [map].
    destruct I as [R NP PR Ct Td Cl Ch No One Ze Wt Go]. set (s' := {| in_active := _ |}).
    assert (U : unfinished s' = (unfinished s + Z.of_nat (b2n (finishing (spawn w))))%Z).
    { unfold unfinished, s'. cbn [in_threads]. rewrite filter_app, app_length. cbn [filter]. destruct (finishing (spawn w)); cbn [List.length b2n]; lia. }
    constructor; auto; try (cbn [s' in_close]; rewrite Hn; intros; exfalso; (congruence || (destruct H; discriminate))).
    + lia.
    + discriminate.
    + rewrite U. cbn [s' in_active]. destruct k; lia.
    + cbn [s' in_threads]. intros t Ht. apply in_app_iff in Ht. destruct Ht as [Ht|[<-|[]]].
      * destruct (Td t Ht) as (A & B & C). split; [exact A|]. split; [exact B|]. intros L N. destruct (C L N); [now left|right; lia].
      * split; [exact Tw|]. split; [intros X; now destruct X|]. intros L N. left. apply Ow; auto.
    + cbn [s' in_close in_threads in_closed]. intros X. destruct (No X) as [N1 N2]. split; [exact N1|]. intros t Ht. apply in_app_iff in Ht. destruct Ht as [Ht|[<-|[]]]; [auto|discriminate].
  - rewrite Z.add_0_r. destruct (nth_error (in_threads s) i) as [t|] eqn:Ei; [|exact I]. pose proof (ci_tidy _ _ _ I t (nth_error_In _ _ Ei)) as (T1 & T2 & T3).
    unfold run_thread. destruct (th_red t) as [[]|] eqn:Er.
    + (* closing.Load *)
      apply (close_inv_put loose r s i t _ (in_active s) (in_closed s) I Ei Pn); cbn [th_todo th_red finishing]; auto.
      * intros _. apply T2. discriminate.
      * change (finishing {| th_todo := th_todo t; th_red := _ |}) with (finishing t). lia.
      * intros X. destruct (ci_none _ _ _ I X) as [N1 _]. split; [exact N1|]. rewrite (ci_closing _ _ _ I), X. discriminate.
      * intros X. rewrite (ci_closing _ _ _ I). unfold is_red. rewrite Er. cbn [th_red]. left. destruct (in_close s); [now destruct X|..]; auto.
    + (* close(closed) *)
      assert (X : in_close s <> CNone). { intros X. destruct (ci_none _ _ _ I X) as [_ N]. exact (N t (nth_error_In _ _ Ei) Er). }
      assert (C0 : in_closed s = false).
      { pose proof (ci_one _ _ _ I X) as O. destruct (in_closed s); [|reflexivity]. exfalso.
        assert (D : (1 <= reducing s)%nat); [|lia]. unfold reducing. destruct (put_split i t s Ei) as (a & b & E & _). change (fun t => match th_red t with None => false | _ => true end) with is_red.
        rewrite E, filter_len_mid. unfold is_red at 2. rewrite Er. cbn. lia. }
      rewrite C0. apply (close_inv_put loose r s i t _ (in_active s) true I Ei Pn); cbn [th_todo th_red finishing]; auto.
      * change (finishing {| th_todo := th_todo t; th_red := _ |}) with (finishing t). lia.
      * intros Y. contradiction.
      * intros _. left. unfold is_red. rewrite Er, C0. cbn. auto.
    + destruct (th_todo t) as [|[] rest] eqn:Et; [exact I| |].
      * (* SendFrame *)
        destruct (in_chans s) eqn:Ec.
        -- assert (G : in_active s = 0%Z). { apply (ci_gone _ _ _ I). right. rewrite (ci_chans _ _ _ I) in Ec. destruct (in_close s); try discriminate. reflexivity. }
           destruct loose.
           ++ destruct I as [R NP PR Ct Td Cl Ch No One Ze Wt Go]. constructor; auto. intros _. cbn [crash in_close]. rewrite Ch in Ec. destruct (in_close s); try discriminate Ec. reflexivity.
           ++ exfalso. destruct (T3 eq_refl ltac:(discriminate)) as [F|F].
              ** pose proof (ci_count _ _ _ I) as Ct. pose proof (ci_r _ _ _ I). assert (D : (1 <= unfinished s)%Z); [|lia].
                 unfold unfinished. destruct (put_split i t s Ei) as (a & b & E & _). rewrite E, filter_len_mid, F. cbn. lia.
              ** pose proof (ci_count _ _ _ I) as Ct. pose proof (unfinished_pos s). lia.
        -- apply (close_inv_put loose r s i t _ (in_active s) (in_closed s) I Ei Pn); cbn [th_todo th_red finishing]; auto.
           ++ now apply tidy_send_inv.
           ++ intros X. now destruct X.
           ++ intros L N. destruct (T3 L ltac:(discriminate)) as [F|F]; [left|now right]. unfold finishing in *. rewrite Et in F. exact F.
           ++ unfold finishing. rewrite Et. cbn [th_todo existsb orb]. lia.
           ++ intros X. destruct (ci_none _ _ _ I X) as [N1 _]. split; [exact N1|discriminate].
           ++ intros X. right. left. unfold is_red. rewrite Er. cbn [th_red]. repeat split; auto; try lia.
      * (* Add(-1) *)
        assert (rest = []) by (now apply tidy_red_inv). subst rest.
        assert (F : finishing t = true) by (unfold finishing; rewrite Et; reflexivity).
        assert (A1 : (1 <= in_active s)%Z).
        { pose proof (ci_count _ _ _ I) as Ct. pose proof (ci_r _ _ _ I). assert (D : (1 <= unfinished s)%Z); [|lia].
          unfold unfinished. destruct (put_split i t s Ei) as (a & b & E & _). rewrite E, filter_len_mid, F. cbn. lia. }
        apply (close_inv_put loose r s i t _ (in_active s - 1) (in_closed s) I Ei Pn); cbn [th_todo th_red finishing]; auto.
        ++ constructor.
        ++ rewrite F. cbn. lia.
        ++ intros X. destruct (ci_none _ _ _ I X) as [N1 _]. split; [exact N1|]. destruct (in_active s - 1 <=? 0)%Z; discriminate.
        ++ intros X. right. unfold is_red. rewrite Er. cbn [th_red]. destruct (Z.leb_spec (in_active s - 1) 0); [right|left]; repeat split; auto; try lia.
  - rewrite Z.add_0_r. assert (I0 := I). destruct I as [R NP PR Ct Td Cl Ch No One Ze Wt Go]. destruct (in_close s) eqn:Ec.
    + destruct (No eq_refl) as [N1 N2]. specialize (Hc eq_refl eq_refl).
      assert (Z0 : reducing s = 0%nat).
      { unfold reducing. clear -Hc. induction Hc as [|t l H _ IH]; [reflexivity|]. cbn [filter]. now rewrite H. }
      constructor; cbn [with_close in_active in_closing in_closed in_chans in_close in_panic]; auto; try discriminate; try congruence.
      * change (reducing (with_close CStored s)) with (reducing s). rewrite Z0, N1. intros _. lia.
      * change (reducing (with_close CStored s)) with (reducing s). rewrite Z0, N1. discriminate.
      * intros [X|X]; discriminate.
    + assert (B : (if (0 <? in_active s)%Z then CWaiting else CGo) <> CNone) by (destruct (0 <? in_active s)%Z; discriminate).
      constructor; cbn [with_close in_active in_closing in_closed in_chans in_close in_panic]; auto; try (destruct (0 <? in_active s)%Z; auto; fail); try congruence.
      * intros _. apply One. discriminate.
      * intros _. apply Ze. discriminate.
      * destruct (Z.ltb_spec 0 (in_active s)); [auto|discriminate].
      * pose proof (unfinished_pos s). destruct (Z.ltb_spec 0 (in_active s)); [intros [X|X]; discriminate|lia].
    + destruct (in_closed s) eqn:Ed; [|exact I0].
      assert (A0 : in_active s = 0%Z). { apply Ze; [discriminate|]. specialize (One ltac:(discriminate)). lia. }
      constructor; cbn [with_close in_active in_closing in_closed in_chans in_close in_panic]; rewrite ?Ed; auto; try discriminate; try congruence.
      * change (reducing (with_close CGo s)) with (reducing s). intros _. apply One. discriminate.
    + constructor; cbn [with_close in_active in_closing in_closed in_chans in_close in_panic]; auto; try discriminate; intros _; change (reducing (with_close CReturned s)) with (reducing s); first [apply One; discriminate|apply Ze; discriminate|apply Go; auto].
    + exact I0.
Qed.

(** How many of the accepted requests will never be finished. *)
Definition stuck_of (l : list action) : Z :=
  fold_right (fun a n => match a with AAccept k o => Z.of_nat (b2n (stuck k o)) + n | _ => n end)%Z 0%Z l.
Lemma stuck_of_snoc : forall l a, stuck_of (l ++ [a]) = (stuck_of l + match a with AAccept k o => Z.of_nat (b2n (stuck k o)) | _ => 0 end)%Z.
Proof. induction l as [|x l IH]; intros a; cbn [app stuck_of fold_right] in *; [destruct a; lia|]. fold (stuck_of (l ++ [a])). fold (stuck_of l). rewrite IH. destruct x; lia. Qed.
Lemma once_at_most : forall k o, once k o -> at_most_once k o.
Proof. intros [] []; cbn; auto. Qed.
Lemma close_inv_run : forall loose (ok : kind -> outcome -> Prop) l, (forall k o, ok k o -> at_most_once k o /\ (loose = false -> once k o)) -> orderly ok l ->
  close_inv loose (stuck_of l) (hacts l inst_init).
Proof.
  intros loose ok l Hok. induction l as [|a l IH] using rev_ind; intros H.
  - constructor; cbn; auto; try lia; try (intros; contradiction); try discriminate.
  - destruct (orderly_prefix _ _ _ H) as (H1 & H2 & H3). specialize (IH H1). rewrite hacts_app, stuck_of_snoc. cbn [hacts].
    destruct (in_panic (hacts l inst_init)) eqn:Ep.
    + unfold hact. rewrite Ep. destruct a as [k o| |]; rewrite ?Z.add_0_r; try exact IH. destruct (H2 k o eq_refl) as [X _].
      rewrite (ci_panic _ _ _ IH Ep) in X. discriminate X.
    + apply close_inv_step; auto. intros k o ->. destruct (H2 k o eq_refl) as [X Y]. destruct (Hok k o Y) as [Z1 Z2]. auto.
Qed.
Lemma stuck_once : forall l, orderly once l -> stuck_of l = 0%Z.
Proof.
  induction l as [|a l IH] using rev_ind; intros H; [reflexivity|]. destruct (orderly_prefix _ _ _ H) as (H1 & H2 & _). rewrite stuck_of_snoc, (IH H1).
  destruct a as [k o| |]; auto. destruct (H2 k o eq_refl) as [_ X]. destruct k, o; cbn in X |- *; try reflexivity; destruct X.
Qed.
Lemma stuck_of_pos : forall l, (0 <= stuck_of l)%Z.
Proof. induction l as [|[] l IH]; cbn [stuck_of fold_right]; [lia| |exact IH..]. fold (stuck_of l). lia. Qed.
Lemma stuck_of_in : forall k o l, stuck k o = true -> In (AAccept k o) l -> (0 < stuck_of l)%Z.
Proof.
  intros k o l E. induction l as [|a l IH]; [intros []|]. cbn [stuck_of fold_right]. fold (stuck_of l). intros [->|H].
  - rewrite E. change (Z.of_nat (b2n true)) with 1%Z. pose proof (stuck_of_pos l). lia.
  - specialize (IH H). destruct a; lia.
Qed.

(** In an orderly use nothing panics; once Close has got past its wait, every
    request accepted before it has sent all its frames; and Close returns when
    they have. *)
Definition idle (t : thread) : Prop := th_todo t = [] /\ th_red t = None.
Theorem C65_close_waits_for_requests : forall l s, orderly once l -> s = hacts l inst_init ->
  in_panic s = false /\
  ((in_close s = CGo \/ in_close s = CReturned) -> Forall (fun t => th_todo t = []) (in_threads s)) /\
  (in_close s <> CNone -> Forall idle (in_threads s) -> in_close (hacts [AClose; AClose; AClose] s) = CReturned).
Proof.
  intros l s H ->. assert (I : close_inv false 0 (hacts l inst_init)).
  { rewrite <- (stuck_once l H). apply (close_inv_run false once); auto. intros k o X. split; [now apply once_at_most|auto]. }
  set (s := hacts l inst_init) in *. split; [exact (ci_nopanic _ _ _ I eq_refl)|]. split.
  - intros G. pose proof (ci_gone _ _ _ I G) as A. pose proof (ci_count _ _ _ I) as C. apply Forall_forall. intros t Ht.
    destruct (ci_tidy _ _ _ I t Ht) as (_ & _ & T). destruct (th_todo t) as [|x y] eqn:E; [reflexivity|]. exfalso.
    destruct (T eq_refl ltac:(discriminate)) as [F|F]; [|lia]. assert (D : (0 < unfinished s)%Z); [|lia].
    unfold unfinished. destruct (filter finishing (in_threads s)) eqn:Ef; [|cbn; lia].
    assert (X : In t []) by (rewrite <- Ef; apply filter_In; auto). destruct X.
  - intros N F. assert (P : in_panic s = false) by exact (ci_nopanic _ _ _ I eq_refl).
    assert (R0 : reducing s = 0%nat).
    { unfold reducing. clear -F. induction F as [|t l0 [_ H] _ IH]; [reflexivity|]. cbn [filter]. now rewrite H. }
    assert (U0 : unfinished s = 0%Z).
    { unfold unfinished. clear -F. induction F as [|t l0 [H _] _ IH]; [reflexivity|]. cbn [filter]. unfold finishing at 1. rewrite H. exact IH. }
    pose proof (ci_count _ _ _ I) as C. assert (A : in_active s = 0%Z) by lia.
    assert (W : in_close s = CWaiting -> in_closed s = true).
    { intros X. destruct (ci_wait _ _ _ I X) as [Y|Y]; [lia|]. rewrite R0 in Y. destruct (in_closed s); [reflexivity|discriminate Y]. }
    cbn [hacts]. unfold hact. rewrite P. destruct (in_close s) eqn:Ec; [now destruct N|..].
    + cbn [with_close in_close in_panic in_active]. rewrite A. cbn [Z.ltb Z.compare with_close in_close in_panic]. rewrite P. cbn [with_close in_close in_panic]. now rewrite P.
    + rewrite (W eq_refl). cbn [with_close in_close in_panic]. rewrite P. cbn [with_close in_close in_panic]. now rewrite P.
    + cbn [with_close in_close in_panic]. rewrite P. cbn [with_close in_close in_panic]. now rewrite P.
    + rewrite P, Ec, P, Ec. exact Ec.
Qed.
(** A request refused for too little metadata, or a stream of an operation that
    does not exist, is counted and never finished: Close never returns. *)
Theorem C65_refused_request_blocks_close : forall l k o, orderly at_most_once l -> In (AAccept k o) l -> stuck k o = true ->
  in_close (hacts l inst_init) <> CGo /\ in_close (hacts l inst_init) <> CReturned.
Proof.
  intros l k o H Hi Hs. assert (I : close_inv true (stuck_of l) (hacts l inst_init)).
  { apply (close_inv_run true at_most_once); auto. intros k0 o0 X. split; [exact X|discriminate]. }
  pose proof (stuck_of_in k o l Hs Hi) as P. pose proof (ci_gone _ _ _ I) as G. pose proof (ci_count _ _ _ I) as C. pose proof (unfinished_pos (hacts l inst_init)).
  split; intros X; [specialize (G (or_introl X))|specialize (G (or_intror X))]; lia.
Qed.

(** Without the restrictions Close returns while a request is being served, and
    serving it then panics.  First: every request is accepted before Close is
    called and finished exactly once, but Close is called while another
    request's goroutine has decremented the counter and not yet looked whether
    the instance is closing. *)
Definition accepted_before_close (ok : kind -> outcome -> Prop) (l : list action) : Prop :=
  forall a k o b, l = a ++ AAccept k o :: b -> in_close (hacts a inst_init) = CNone /\ ok k o.
Definition early (l : list action) : Prop :=
  in_close (hacts l inst_init) = CReturned /\ in_panic (hacts l inst_init) = false /\
  Exists (fun t => th_todo t <> []) (in_threads (hacts l inst_init)) /\ exists i, in_panic (hacts (l ++ [ARun i]) inst_init) = true.
Ltac positions H := repeat match type of H with
  | [] = ?a ++ _ :: _ => exfalso; destruct a; discriminate H
  | _ :: _ = ?a ++ _ => let x := fresh "x" in destruct a as [|x a]; cbn [app] in H; [try discriminate H; try (injection H as <- <- _)|injection H as <- H]
  end.
Definition C65_race : list action :=
  [AAccept RR (Served 0 0); ARun 0; ARun 0; AAccept RR (Served 0 0); AClose; AClose; ARun 0; ARun 0; AClose; AClose].
Theorem C65_close_race_refuted : accepted_before_close once C65_race /\ early C65_race.
Proof.
  split.
  - intros a k o b H. unfold C65_race in H. positions H; try (split; [reflexivity|exact I]).
  - split; [reflexivity|]. split; [reflexivity|]. split; [right; left; discriminate|]. exists 1%nat. reflexivity.
Qed.
(** Second: a channel cancelled by the guest is finished by the cancel and once
    more by its handler. *)
Definition C65_cancelled : list action :=
  [AAccept RC (Served 0 1); AAccept RR (Served 0 0); ARun 1; ARun 1; ARun 0; ARun 0; ARun 0; AClose; AClose; AClose].
Theorem C65_cancelled_channel_refuted : accepted_before_close (fun _ _ => True) C65_cancelled /\
  (forall a b, C65_cancelled = a ++ AClose :: b -> in_close (hacts a inst_init) = CNone -> Forall (fun t => th_red t = None) (in_threads (hacts a inst_init))) /\
  early C65_cancelled.
Proof.
  split; [|split].
  - intros a k o b H. unfold C65_cancelled in H. positions H; (split; [reflexivity|exact I]).
  - intros a b H N. unfold C65_cancelled in H. positions H; first [discriminate N|now repeat constructor].
  - split; [reflexivity|]. split; [reflexivity|]. split; [right; right; left; discriminate|]. exists 2%nat. reflexivity.
Qed.
(** Third: Close does not stop requests from being accepted while it waits. *)
Definition C65_during : list action :=
  [AAccept RR (Served 0 0); AClose; AClose; ARun 0; ARun 0; ARun 0; ARun 0; AAccept RR (Served 0 0); AClose; AClose].
Theorem C65_request_during_close_refuted :
  (forall k o, In (AAccept k o) C65_during -> once k o) /\ early C65_during.
Proof.
  split.
  - intros k o H. cbn in H. repeat match type of H with _ \/ _ => destruct H as [H|H]; [try discriminate H; injection H as <- <-; exact I|] end. destruct H.
  - split; [reflexivity|]. split; [reflexivity|]. split; [right; left; discriminate|]. exists 1%nat. reflexivity.
Qed.

(** A stream of two items and a call served while Close waits; and a call with
    too little metadata. *)
Definition C65_served : list action :=
  [AAccept RS (Served 2 0); AAccept RR (Served 0 0); AAccept FNF (Served 0 0); ARun 0; AClose; AClose; AClose; ARun 1; ARun 1; ARun 0; ARun 0; ARun 0].
Definition C65_refused : list action := [AAccept RR BadMetadata; ARun 0; AClose; AClose; AClose].
Example C65_example :
  orderly once C65_served /\ in_close (hacts C65_served inst_init) = CWaiting /\
  in_close (hacts (C65_served ++ [ARun 0; ARun 0; AClose]) inst_init) = CGo /\
  orderly at_most_once C65_refused /\ stuck RR BadMetadata = true /\ in_close (hacts C65_refused inst_init) = CWaiting /\
  in_threads (hacts C65_refused inst_init) = [spawn []].
Proof.
  split; [|split; [reflexivity|split; [reflexivity|split; [|split; [reflexivity|split; reflexivity]]]]].
  - split.
    + intros a k o b H. unfold C65_served in H. positions H; (split; [reflexivity|exact I]).
    + intros a b H N. unfold C65_served in H. positions H; first [discriminate N|now repeat constructor].
  - split.
    + intros a k o b H. unfold C65_refused in H. positions H; (split; [reflexivity|exact I]).
    + intros a b H N. unfold C65_refused in H. positions H; first [discriminate N|now repeat constructor].
Qed.
Print Assumptions C65_close_waits_for_requests.
Print Assumptions C65_refused_request_blocks_close.
Print Assumptions C65_close_race_refuted.
