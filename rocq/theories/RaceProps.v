(** C53 and C81, step by step: the goroutines of requests on the host. *)
From Verif Require Import Base RespModel.
Local Ltac Zify.zify_post_hook ::= Z.div_mod_to_equations.

(** ** What is claimed, in terms of what the sinks were told *)
Section Spec.
Context {V L : Type}.
(** How much was asked for by the goroutines started so far. *)
Definition asked_for (l : list race_op) : list Z := flat_map (fun x => match x with RSpawn _ n => [n] | _ => [] end) l.
Definition sum_asked (l : list Z) : nat := fold_right (fun n s => Z.to_nat n + s)%nat 0%nat l.
(** All requests are made through one subscriber. *)
Definition one_subscriber (l : list race_op) : Prop := forall sub n, In (RSpawn sub n) l -> sub = 0%nat.
Definition all_returned (c : @race V L) : Prop := forall g, In g (rc_go c) -> g_phase g = GReturned.
End Spec.

(** ** One subscriber: the mutex serialises the requests *)
Section Lock.
Context {V L : Type} (start : Z -> L) (body : L -> list V -> option (option L * list V * list V * bool)).
(** What a request function does when it has the slice for itself: [I l n vs sh out]
    says that a call for [n] values, made when the slice was [vs], is at [l], has
    left [sh] and has handed over [out]. *)
Context (I : L -> Z -> list V -> list V -> list V -> Prop) (okn : Z -> Prop).
Hypothesis I_start : forall n vs, okn n -> I (start n) n vs vs [].
Hypothesis I_out : forall l n vs sh out, I l n vs sh out -> exists k, (k <= Z.to_nat n)%nat /\ out = firstn k vs.
Hypothesis I_step : forall l n vs sh out, I l n vs sh out ->
  match body l sh with
  | None => False
  | Some (Some l', sh', o, done) => I l' n vs sh' (out ++ o) /\ done = false
  | Some (None, sh', o, done) => out ++ o = firstn (Z.to_nat n) vs /\ sh' = skipn (Z.to_nat n) vs /\ (done = true <-> sh' = [])
  end.

Definition returned (g : @goroutine L) : bool := match g_phase g with GReturned => true | _ => false end.
Definition finished_sum (l : list (@goroutine L)) : nat := fold_right (fun g s => (if returned g then Z.to_nat (g_n g) else 0) + s)%nat 0%nat l.
Definition is_inside (g : @goroutine L) : Prop := exists l, g_phase g = GInside l.

(** [t]: what the goroutines that returned asked for. *)
Definition lock_inv (slice : list V) (c : @race V L) : Prop :=
  rc_panic c = false /\ (forall g, In g (rc_go c) -> g_sub g = 0%nat /\ okn (g_n g)) /\
  exists vs out, vs = skipn (finished_sum (rc_go c)) slice /\
    rc_next c = map (pair 0%nat) (firstn (finished_sum (rc_go c)) slice ++ out) /\
    (rc_complete c <> [] <-> (exists g, In g (rc_go c) /\ returned g = true) /\ vs = []) /\
    (forall s, In s (rc_complete c) -> s = 0%nat) /\
    ((rc_held c = [] /\ rc_slice c = vs /\ out = [] /\ forall g, In g (rc_go c) -> ~ is_inside g) \/
     (rc_held c = [0%nat] /\ exists a g b l, rc_go c = a ++ g :: b /\ g_phase g = GInside l /\ I l (g_n g) vs (rc_slice c) out /\
        forall x, In x (a ++ b) -> ~ is_inside x)).

Lemma finished_app : forall a b, finished_sum (a ++ b) = (finished_sum a + finished_sum b)%nat.
Proof. induction a as [|g a IH]; intros b; cbn [app finished_sum fold_right]; [reflexivity|]. fold (finished_sum (a ++ b)) (finished_sum a). rewrite IH. lia. Qed.
Lemma put_go_split : forall i (l : list (@goroutine L)) g p, nth_error l i = Some g ->
  l = firstn i l ++ g :: skipn (S i) l /\ put_go i g p l = firstn i l ++ {| g_sub := g_sub g; g_n := g_n g; g_phase := p |} :: skipn (S i) l.
Proof.
  intros i l g p H. split; [|reflexivity]. revert l H. induction i as [|i IH]; intros [|x l] H; try discriminate H.
  - now injection H as ->.
  - cbn [firstn skipn app]. f_equal. now apply IH.
Qed.

Lemma lock_spawn : forall slice c n, lock_inv slice c -> okn n -> lock_inv slice (race_step start body (RSpawn 0 n) c).
Proof.
  intros slice c n (P & G & vs & out & Hvs & Hn & Hc & Hc0 & Hh) Hok. unfold race_step. rewrite P.
  split; [reflexivity|]. split; [cbn [rc_go]; intros g Hg; apply in_app_iff in Hg as [Hg|[<-|[]]]; [now apply G|now split]|].
  exists vs, out. cbn [rc_go rc_next rc_complete rc_held rc_slice]. rewrite finished_app. change (finished_sum [_]) with 0%nat. rewrite Nat.add_0_r.
  split; [exact Hvs|]. split; [exact Hn|].
  split. { rewrite Hc. split; intros [(g & Hg & Hr) Hv]; (split; [|exact Hv]).
    - exists g. split; [apply in_app_iff; now left|exact Hr].
    - apply in_app_iff in Hg as [Hg|[<-|[]]]; [now exists g|discriminate Hr]. }
  split; [exact Hc0|]. destruct Hh as [(H1 & H2 & H3 & H4)|(H1 & a & g & b & l & H2 & H3 & H4 & H5)].
  - left. repeat split; try assumption. intros g Hg. apply in_app_iff in Hg as [Hg|[<-|[]]]; [now apply H4|]. intros [l Hl]. discriminate Hl.
  - right. split; [exact H1|]. exists a, g, (b ++ [{| g_sub := 0; g_n := n; g_phase := GWaiting |}]), l. rewrite H2. rewrite <- app_assoc. cbn [app].
    split; [reflexivity|]. split; [exact H3|]. split; [exact H4|]. intros x Hx. rewrite app_assoc in Hx. apply in_app_iff in Hx as [Hx|[<-|[]]]; [now apply H5|]. intros [y Hy]. discriminate Hy.
Qed.

Lemma split_unique : forall (P : @goroutine L -> Prop) a g b a' g' b', a ++ g :: b = a' ++ g' :: b' -> P g -> P g' ->
  (forall x, In x (a ++ b) -> ~ P x) -> a = a' /\ g = g' /\ b = b'.
Proof.
  intros P a. induction a as [|x a IH]; intros g b [|x' a'] g' b' E Hg Hg' N; cbn [app] in *.
  - injection E as -> ->. auto.
  - injection E as -> ->. exfalso. apply (N g'); [apply in_app_iff; right; now left|exact Hg'].
  - injection E as -> E. exfalso. apply (N g'); [now left|exact Hg'].
  - injection E as -> E. destruct (IH _ _ _ _ _ E Hg Hg') as (-> & -> & ->); [intros y Hy; apply N; now right|]. auto.
Qed.

Lemma lock_go : forall slice c i, lock_inv slice c -> lock_inv slice (race_step start body (RStep i) c).
Proof.
  intros slice c i Inv. pose proof Inv as (P & G & vs & out & Hvs & Hn & Hc & Hc0 & Hh). unfold race_step. rewrite P.
  destruct (nth_error (rc_go c) i) as [g|] eqn:Eg; [|exact Inv].
  destruct (g_phase g) as [|l|] eqn:Ep; [| |exact Inv].
  - (* waiting *)
    destruct (G g (nth_error_In _ _ Eg)) as [Gs Gn]. destruct (put_go_split i (rc_go c) g (GInside (start (g_n g))) Eg) as [Es Ep'].
    destruct Hh as [(H1 & H2 & H3 & H4)|(H1 & _)]; [|rewrite Gs, H1; exact Inv].
    rewrite Gs, H1. cbn [existsb]. rewrite Ep'.
    assert (F : finished_sum (firstn i (rc_go c) ++ {| g_sub := g_sub g; g_n := g_n g; g_phase := GInside (start (g_n g)) |} :: skipn (S i) (rc_go c)) = finished_sum (rc_go c)).
    { rewrite Es at 3. rewrite !finished_app. f_equal. cbn [finished_sum fold_right]. unfold returned. cbn [g_phase]. rewrite Ep. reflexivity. }
    assert (K : forall x, In x (firstn i (rc_go c) ++ skipn (S i) (rc_go c)) -> In x (rc_go c)).
    { intros x Hx. rewrite Es. apply in_app_iff in Hx as [Hx|Hx]; apply in_app_iff; [now left|right; now right]. }
    split; [reflexivity|]. split.
    { cbn [rc_go]. intros x Hx. apply in_app_iff in Hx as [Hx|[<-|Hx]]; [apply G, K, in_app_iff; now left|cbn; now split|apply G, K, in_app_iff; now right]. }
    exists vs, []. cbn [rc_go rc_next rc_complete rc_held rc_slice]. rewrite F. split; [exact Hvs|]. split; [now rewrite Hn, H3|]. split.
    { rewrite Hc. split; intros [(x & Hx & Hr) Hv]; (split; [|exact Hv]).
      - rewrite Es in Hx. apply in_app_iff in Hx as [Hx|[<-|Hx]]; [exists x; split; [apply in_app_iff; now left|exact Hr]| |exists x; split; [apply in_app_iff; right; now right|exact Hr]].
        unfold returned in Hr. now rewrite Ep in Hr.
      - apply in_app_iff in Hx as [Hx|[<-|Hx]]; [exists x; split; [apply K, in_app_iff; now left|exact Hr]|discriminate Hr|exists x; split; [apply K, in_app_iff; now right|exact Hr]]. }
    split; [exact Hc0|]. right. split; [reflexivity|].
    exists (firstn i (rc_go c)), {| g_sub := g_sub g; g_n := g_n g; g_phase := GInside (start (g_n g)) |}, (skipn (S i) (rc_go c)), (start (g_n g)).
    split; [now rewrite Gs|]. split; [reflexivity|]. split; [rewrite H2; cbn [g_n]; now apply I_start|]. intros x Hx. apply H4, K, Hx.
  - (* inside *)
    destruct (G g (nth_error_In _ _ Eg)) as [Gs Gn].
    destruct Hh as [(H1 & H2 & H3 & H4)|(H1 & a & g' & b & l' & H2 & H3 & H4 & H5)]; [exfalso; apply (H4 g (nth_error_In _ _ Eg)); now exists l|].
    destruct (put_go_split i (rc_go c) g GReturned Eg) as [Es _].
    assert (U : firstn i (rc_go c) = a /\ g = g' /\ skipn (S i) (rc_go c) = b).
    { rewrite H2 in Es at 1. destruct (split_unique is_inside _ _ _ _ _ _ Es) as (U1 & U2 & U3); [now exists l'|now exists l|exact H5|]. now rewrite U1, U2, U3. }
    destruct U as (Ua & <- & Ub). assert (l' = l) as -> by congruence. unfold put_go. rewrite Ua, Ub.
    pose proof (I_step _ _ _ _ _ H4) as S. destruct (body l (rc_slice c)) as [[[[[l'|] sh'] o] done]|] eqn:Eb; [| |destruct S].
    + (* goes on *)
      destruct S as [S ->].
      assert (F : finished_sum (a ++ {| g_sub := g_sub g; g_n := g_n g; g_phase := GInside l' |} :: b) = finished_sum (rc_go c)).
      { rewrite H2, !finished_app. f_equal. cbn [finished_sum fold_right]. unfold returned. cbn [g_phase]. rewrite Ep. reflexivity. }
      split; [reflexivity|]. split.
      { cbn [rc_go]. intros x Hx. apply in_app_iff in Hx as [Hx|[<-|Hx]]; [apply G; rewrite H2; apply in_app_iff; now left|cbn; now split|apply G; rewrite H2; apply in_app_iff; right; now right]. }
      exists vs, (out ++ o). cbn [rc_go rc_next rc_complete rc_held rc_slice]. rewrite F. split; [exact Hvs|]. split; [rewrite Hn, Gs, !map_app, <- !app_assoc; reflexivity|]. rewrite app_nil_r. split.
      { rewrite Hc, H2. split; intros [(x & Hx & Hr) Hv]; (split; [|exact Hv]); apply in_app_iff in Hx as [Hx|[<-|Hx]].
        - exists x. split; [apply in_app_iff; now left|exact Hr].
        - unfold returned in Hr. now rewrite Ep in Hr.
        - exists x. split; [apply in_app_iff; right; now right|exact Hr].
        - exists x. split; [apply in_app_iff; now left|exact Hr].
        - discriminate Hr.
        - exists x. split; [apply in_app_iff; right; now right|exact Hr]. }
      split; [exact Hc0|]. right. split; [exact H1|].
      exists a, {| g_sub := g_sub g; g_n := g_n g; g_phase := GInside l' |}, b, l'. split; [reflexivity|]. split; [reflexivity|]. split; [exact S|exact H5].
    + (* returns *)
      destruct S as (S1 & S2 & S3).
      assert (F : finished_sum (a ++ {| g_sub := g_sub g; g_n := g_n g; g_phase := GReturned |} :: b) = (finished_sum (rc_go c) + Z.to_nat (g_n g))%nat).
      { rewrite H2, !finished_app. cbn [finished_sum fold_right]. unfold returned at 1 3. cbn [g_phase g_n]. rewrite Ep. fold (finished_sum b). lia. }
      split; [reflexivity|]. split.
      { cbn [rc_go]. intros x Hx. apply in_app_iff in Hx as [Hx|[<-|Hx]]; [apply G; rewrite H2; apply in_app_iff; now left|cbn; now split|apply G; rewrite H2; apply in_app_iff; right; now right]. }
      assert (SK : forall (m k : nat) (w : list V), skipn k (skipn m w) = skipn (m + k) w).
      { clear. induction m as [|m IH]; intros k w; [reflexivity|]. destruct w as [|x w]; [now rewrite !skipn_nil|]. apply IH. }
      assert (FS : forall (m k : nat) (w : list V), firstn m w ++ firstn k (skipn m w) = firstn (m + k) w).
      { clear. induction m as [|m IH]; intros k w; [reflexivity|]. destruct w as [|x w]; [now rewrite !firstn_nil|]. cbn [firstn skipn app Nat.add]. f_equal. apply IH. }
      exists sh', []. cbn [rc_go rc_next rc_complete rc_held rc_slice]. rewrite F. split; [now rewrite S2, Hvs, SK|].
      split. { rewrite Hn, Gs, <- map_app, <- app_assoc, S1, Hvs, FS, app_nil_r. reflexivity. }
      split.
      { split.
        - intros X. split; [exists {| g_sub := g_sub g; g_n := g_n g; g_phase := GReturned |}; split; [apply in_app_iff; right; now left|reflexivity]|].
          destruct done; [now apply S3|]. rewrite app_nil_r in X. apply Hc in X as [_ X]. rewrite S2, X. apply skipn_nil.
        - intros [_ X]. apply S3 in X. subst done. intros Y. apply app_eq_nil in Y as [_ Y]. discriminate Y. }
      split. { intros s Hs. apply in_app_iff in Hs as [Hs|Hs]; [now apply Hc0|]. destruct done; [destruct Hs as [<-|[]]; exact Gs|destruct Hs]. }
      left. rewrite H1, Gs. cbn [remove]. split; [now destruct (Nat.eq_dec 0 0)|]. split; [reflexivity|]. split; [reflexivity|].
      intros x Hx. apply in_app_iff in Hx as [Hx|[<-|Hx]]; [apply H5, in_app_iff; now left|intros [y Hy]; discriminate Hy|apply H5, in_app_iff; now right].
Qed.

Lemma lock_reach : forall l slice, one_subscriber l -> Forall okn (asked_for l) -> lock_inv slice (race_run start body l slice) /\ map g_n (rc_go (race_run start body l slice)) = asked_for l.
Proof.
  intros l slice. unfold race_run. apply (rev_ind (fun l => one_subscriber l -> Forall okn (asked_for l) ->
    lock_inv slice (fold_left (fun c x => race_step start body x c) l (race_init slice)) /\ map g_n (rc_go (fold_left (fun c x => race_step start body x c) l (race_init slice))) = asked_for l)); clear l.
  - intros _ _. cbn [fold_left]. split; [|reflexivity]. split; [reflexivity|]. split; [intros g []|]. exists slice, []. cbn [race_init rc_go rc_next rc_complete rc_held rc_slice finished_sum fold_right skipn firstn app map].
    split; [reflexivity|]. split; [reflexivity|]. split; [split; [intros X; now contradiction X|intros [(g & [] & _) _]]|]. split; [intros s []|].
    left. repeat split. intros g [].
  - intros x l IH H1 H2. rewrite fold_left_app. cbn [fold_left]. unfold asked_for in *. rewrite flat_map_app in *. apply Forall_app in H2 as [H2 H3].
    destruct IH as [IH IH2]; [intros s n Hs; apply (H1 s n), in_app_iff; now left|exact H2|].
    set (c := fold_left _ _ _) in *. destruct x as [s n|i].
    + assert (s = 0%nat) as -> by (apply (H1 s n), in_app_iff; right; now left). split; [apply lock_spawn; [exact IH|now inversion H3]|].
      pose proof IH as [P _]. unfold race_step. rewrite P. cbn [rc_go]. rewrite map_app, IH2. reflexivity.
    + cbn [flat_map]. rewrite app_nil_r. split; [now apply lock_go|]. rewrite <- IH2. unfold race_step. pose proof IH as [P _]. rewrite P.
      destruct (nth_error (rc_go c) i) as [g|] eqn:Eg; [|reflexivity].
      assert (K : forall p, map g_n (put_go i g p (rc_go c)) = map g_n (rc_go c)).
      { intros p. destruct (put_go_split i (rc_go c) g p Eg) as [E1 E2]. rewrite E2. transitivity (map g_n (firstn i (rc_go c) ++ g :: skipn (S i) (rc_go c))); [now rewrite !map_app|now rewrite <- E1]. }
      destruct (g_phase g); [|destruct (body _ _) as [[[[r sh] o] d]|]; [cbn [rc_go]; apply K|reflexivity]|reflexivity].
      destruct (existsb _ _); [reflexivity|cbn [rc_go]; apply K].
Qed.

Lemma finished_le : forall l : list (@goroutine L), (finished_sum l <= sum_asked (map g_n l))%nat.
Proof. induction l as [|g l IH]; [reflexivity|]. cbn [finished_sum fold_right map sum_asked]. fold (finished_sum l). fold (sum_asked (map g_n l)). destruct (returned g); lia. Qed.
Lemma finished_all : forall l : list (@goroutine L), (forall g, In g l -> g_phase g = GReturned) -> finished_sum l = sum_asked (map g_n l).
Proof.
  induction l as [|g l IH]; intros H; [reflexivity|]. cbn [finished_sum fold_right map sum_asked]. fold (finished_sum l). fold (sum_asked (map g_n l)).
  rewrite IH by (intros; apply H; now right). unfold returned. now rewrite (H g (or_introl eq_refl)).
Qed.
(** A goroutine inside counts with what it asked for. *)
Lemma finished_inside : forall a (g : @goroutine L) b l, g_phase g = GInside l -> (finished_sum (a ++ g :: b) + Z.to_nat (g_n g) <= sum_asked (map g_n (a ++ g :: b)))%nat.
Proof.
  intros a g b l Hl. rewrite finished_app, map_app. assert (S : forall u w, sum_asked (u ++ w) = (sum_asked u + sum_asked w)%nat).
  { clear. induction u as [|x u IH]; intros w; [reflexivity|]. cbn [app sum_asked fold_right]. fold (sum_asked (u ++ w)) (sum_asked u). rewrite IH. lia. }
  rewrite S. cbn [map sum_asked finished_sum fold_right]. fold (finished_sum b) (sum_asked (map g_n b)). unfold returned at 1. rewrite Hl. pose proof (finished_le a). pose proof (finished_le b). lia.
Qed.

Theorem lock_result : forall l slice, one_subscriber l -> Forall okn (asked_for l) ->
  let c := race_run start body l slice in
  rc_panic c = false /\ (forall s, In s (rc_complete c) -> s = 0%nat) /\
  (exists k, (k <= sum_asked (asked_for l))%nat /\ rc_next c = map (pair 0%nat) (firstn k slice)) /\
  (rc_complete c <> [] -> (List.length slice <= sum_asked (asked_for l))%nat /\ rc_next c = map (pair 0%nat) slice) /\
  (all_returned c -> rc_next c = map (pair 0%nat) (firstn (sum_asked (asked_for l)) slice) /\
     (rc_complete c <> [] <-> asked_for l <> [] /\ (List.length slice <= sum_asked (asked_for l))%nat)).
Proof.
  intros l slice H1 H2 c. destruct (lock_reach l slice H1 H2) as [Inv M]. fold c in Inv, M. destruct Inv as (P & G & vs & out & Hvs & Hn & Hc & Hc0 & Hh).
  assert (SN : forall k, skipn k slice = [] <-> (List.length slice <= k)%nat).
  { intros k. split; [intros X; apply (f_equal (@List.length V)) in X; rewrite skipn_length in X; cbn in X; lia|intros X; now apply skipn_all2]. }
  assert (K : exists k, (finished_sum (rc_go c) + k <= sum_asked (asked_for l))%nat /\ out = firstn k vs).
  { rewrite <- M. destruct Hh as [(_ & _ & -> & _)|(_ & a & g & b & l' & Ea & Ep & Il & _)].
    - exists 0%nat. split; [rewrite Nat.add_0_r; apply finished_le|reflexivity].
    - destruct (I_out _ _ _ _ _ Il) as (k & Hk & ->). exists k. split; [|reflexivity]. rewrite Ea. pose proof (finished_inside a g b l' Ep). lia. }
  destruct K as (k & Hk & ->).
  assert (FS : forall (m k : nat) (w : list V), firstn m w ++ firstn k (skipn m w) = firstn (m + k) w).
  { clear. induction m as [|m IH]; intros k w; [reflexivity|]. destruct w as [|x w]; [now rewrite !firstn_nil|]. cbn [firstn skipn app Nat.add]. f_equal. apply IH. }
  rewrite Hvs, FS in Hn.
  split; [exact P|]. split; [exact Hc0|]. split; [exists (finished_sum (rc_go c) + k)%nat; split; [exact Hk|exact Hn]|]. split.
  - intros X. apply Hc in X as [_ X]. rewrite Hvs in X. apply SN in X. split; [lia|]. rewrite Hn. f_equal. apply firstn_all2. lia.
  - intros A. pose proof (finished_all (rc_go c) A) as F. rewrite M in F. split.
    + rewrite Hn. rewrite <- F. destruct Hh as [(_ & _ & Ho & _)|(_ & a & g & b & l' & Ea & Ep & _)].
      * f_equal. rewrite <- FS, <- Hvs, Ho, app_nil_r. reflexivity.
      * exfalso. assert (In g (rc_go c)) by (rewrite Ea; apply in_app_iff; right; now left). rewrite (A g H) in Ep. discriminate Ep.
    + rewrite Hc, Hvs, SN, F, <- M. split; intros [X Y]; (split; [|exact Y]).
      * destruct X as (g & Hg & _). intros Z. apply map_eq_nil in Z. rewrite Z in Hg. destruct Hg.
      * destruct (rc_go c) as [|g gs] eqn:Eg; [now contradiction X|]. exists g. split; [now left|]. unfold returned. rewrite (A g); [reflexivity|]. rewrite Eg. now left.
Qed.
End Lock.

(** ** The two request functions alone *)
Section Bodies.
Context {V : Type}.
Definition resp_at (l : rlocal) (n : Z) (vs sh out : list V) : Prop :=
  (0 <= n)%Z /\
  match l with
  | QStart m => m = n /\ sh = vs /\ out = []
  | QLoop i num => num = Nat.min (List.length vs) (Z.to_nat n) /\ (i <= num)%nat /\ sh = vs /\ out = firstn i vs
  | QEnd => sh = skipn (Z.to_nat n) vs /\ out = firstn (Z.to_nat n) vs
  end.
Lemma resp_out : forall l n (vs sh out : list V), resp_at l n vs sh out -> exists k, (k <= Z.to_nat n)%nat /\ out = firstn k vs.
Proof.
  intros [m|i num|] n vs sh out (Hn & H).
  - exists 0%nat. split; [lia|tauto].
  - exists i. split; [lia|tauto].
  - exists (Z.to_nat n). split; [lia|tauto].
Qed.
Lemma firstn_S_nth : forall (l : list V) i v, nth_error l i = Some v -> firstn i l ++ [v] = firstn (S i) l.
Proof. induction l as [|x l IH]; intros [|i] v H; try discriminate H; cbn in H |- *; [now injection H as ->|]. f_equal. now apply IH. Qed.
Lemma skipn_min : forall (l : list V) n, skipn (Nat.min (List.length l) n) l = skipn n l /\ firstn (Nat.min (List.length l) n) l = firstn n l.
Proof. induction l as [|x l IH]; intros [|n]; cbn; auto. destruct (IH n) as [H1 H2]. now rewrite H1, H2. Qed.
Lemma resp_step : forall l n (vs sh out : list V), resp_at l n vs sh out ->
  match resp_body l sh with
  | None => False
  | Some (Some l', sh', o, done) => resp_at l' n vs sh' (out ++ o) /\ done = false
  | Some (None, sh', o, done) => out ++ o = firstn (Z.to_nat n) vs /\ sh' = skipn (Z.to_nat n) vs /\ (done = true <-> sh' = [])
  end.
Proof.
  intros [m|i num|] n vs sh out (Hn & H); cbn [resp_body].
  - destruct H as (-> & -> & ->). destruct (Z.ltb_spec n 0); [lia|]. split; [|reflexivity]. split; [exact Hn|]. cbn. repeat split. lia.
  - destruct H as (Hm & Hi & -> & ->). destruct (Nat.ltb_spec i num).
    + destruct (nth_error vs i) as [v|] eqn:E; [|apply nth_error_None in E; lia]. split; [|reflexivity]. split; [exact Hn|]. repeat split; [exact Hm|lia|now apply firstn_S_nth].
    + destruct (Nat.leb_spec num (List.length vs)); [|lia]. split; [|reflexivity]. split; [exact Hn|]. assert (i = num) as -> by lia. rewrite app_nil_r, Hm. apply skipn_min.
  - destruct H as (-> & ->). rewrite app_nil_r. repeat split. { intros X. apply Nat.eqb_eq in X. now apply length_zero_iff_nil. } { intros ->. reflexivity. }
Qed.

(** [k] values were handed over; [i] more are wanted. *)
Definition slice_at (l : slocal V) (n : Z) (vs sh out : list V) : Prop :=
  exists k, (k <= Z.to_nat n)%nat /\ out = firstn k vs /\
  match l with
  | SHead i => Z.to_nat i = (Z.to_nat n - k)%nat /\ sh = skipn k vs
  | SRead i => (0 < i)%Z /\ Z.to_nat i = (Z.to_nat n - k)%nat /\ sh = skipn k vs /\ sh <> []
  | SShift i v => (0 < i)%Z /\ Z.to_nat i = (Z.to_nat n - k)%nat /\ sh = skipn k vs /\ exists r, sh = v :: r
  | SSend i v => (0 < i)%Z /\ Z.to_nat i = (Z.to_nat n - k)%nat /\ skipn k vs = v :: sh
  | SEnd => sh = skipn (Z.to_nat n) vs /\ out = firstn (Z.to_nat n) vs
  end.
Lemma slice_out : forall l n (vs sh out : list V), slice_at l n vs sh out -> exists k, (k <= Z.to_nat n)%nat /\ out = firstn k vs.
Proof. intros l n vs sh out (k & H1 & H2 & _). now exists k. Qed.
Lemma skipn_cons : forall (l : list V) k v r, skipn k l = v :: r -> firstn k l ++ [v] = firstn (S k) l /\ skipn (S k) l = r.
Proof.
  induction l as [|x l IH]; intros [|k] v r H; try discriminate H.
  - injection H as -> ->. now split.
  - cbn [skipn] in H. destruct (IH k v r H) as [H1 H2]. split; [|exact H2]. change (x :: (firstn k l ++ [v]) = x :: firstn (S k) l). now rewrite H1.
Qed.
Lemma slice_step : forall l n (vs sh out : list V), slice_at l n vs sh out ->
  match slice_body l sh with
  | None => False
  | Some (Some l', sh', o, done) => slice_at l' n vs sh' (out ++ o) /\ done = false
  | Some (None, sh', o, done) => out ++ o = firstn (Z.to_nat n) vs /\ sh' = skipn (Z.to_nat n) vs /\ (done = true <-> sh' = [])
  end.
Proof.
  intros [i|i|i v|i v|] n vs sh out (k & Hk & Ho & H); cbn [slice_body]; rewrite ?app_nil_r.
  - destruct H as (Hi & ->). split; [|reflexivity]. destruct (Z.ltb_spec 0 i) as [Hp|Hp]; cbn [andb].
    + destruct (Nat.eqb_spec (List.length (skipn k vs)) 0) as [E|E]; cbn [negb].
      * exists k. split; [exact Hk|]. split; [exact Ho|]. rewrite skipn_length in E. rewrite Ho, (skipn_all2 (n := k)), (skipn_all2 (n := Z.to_nat n)), (firstn_all2 (n := k)), (firstn_all2 (n := Z.to_nat n)) by lia. now split.
      * exists k. split; [exact Hk|]. split; [exact Ho|]. repeat split; try assumption. intros X. rewrite X in E. exact (E eq_refl).
    + exists k. split; [exact Hk|]. split; [exact Ho|]. assert (Z.to_nat n = k) as -> by lia. now split.
  - destruct H as (Hp & Hi & Hs & Hne). destruct sh as [|v sh]; [now apply Hne|]. split; [|reflexivity]. exists k. rewrite app_nil_r. do 5 (split; [assumption|]). now exists sh.
  - destruct H as (Hp & Hi & Hs & r & ->). split; [|reflexivity]. exists k. rewrite app_nil_r. do 4 (split; [assumption|]). now rewrite <- Hs.
  - destruct H as (Hp & Hi & Hs). split; [|reflexivity]. destruct (skipn_cons _ _ _ _ Hs) as [F G]. exists (S k). split; [lia|]. split; [now rewrite Ho|]. split; [lia|now rewrite G].
  - destruct H as (-> & ->). repeat split. { intros X. apply Nat.eqb_eq in X. now apply length_zero_iff_nil. } { intros ->. reflexivity. }
Qed.
End Bodies.

(** Requests through one subscriber, every interleaving: the values arrive in
    order, at most as many as asked for and, once every goroutine is done,
    exactly; the completion comes after the last value, exactly when something
    was asked for and nothing is left; nothing panics. *)
Theorem C81_any_interleaving : forall V (l : list race_op) (slice : list V), one_subscriber l -> Forall (fun n => 0 <= n)%Z (asked_for l) ->
  let c := race_run QStart resp_body l slice in
  rc_panic c = false /\ (forall s, In s (rc_complete c) -> s = 0%nat) /\
  (exists k, (k <= sum_asked (asked_for l))%nat /\ rc_next c = map (pair 0%nat) (firstn k slice)) /\
  (rc_complete c <> [] -> (List.length slice <= sum_asked (asked_for l))%nat /\ rc_next c = map (pair 0%nat) slice) /\
  (all_returned c -> rc_next c = map (pair 0%nat) (firstn (sum_asked (asked_for l)) slice) /\
     (rc_complete c <> [] <-> asked_for l <> [] /\ (List.length slice <= sum_asked (asked_for l))%nat)).
Proof.
  intros V l slice H1 H2. apply (lock_result QStart resp_body resp_at (fun n => 0 <= n)%Z); auto.
  - intros n vs Hn. split; [exact Hn|]. now repeat split.
  - apply resp_out.
  - apply resp_step.
Qed.
Theorem C53_any_interleaving : forall V (l : list race_op) (values : list V), one_subscriber l ->
  let c := race_run SHead slice_body l values in
  rc_panic c = false /\ (forall s, In s (rc_complete c) -> s = 0%nat) /\
  (exists k, (k <= sum_asked (asked_for l))%nat /\ rc_next c = map (pair 0%nat) (firstn k values)) /\
  (rc_complete c <> [] -> (List.length values <= sum_asked (asked_for l))%nat /\ rc_next c = map (pair 0%nat) values) /\
  (all_returned c -> rc_next c = map (pair 0%nat) (firstn (sum_asked (asked_for l)) values) /\
     (rc_complete c <> [] <-> asked_for l <> [] /\ (List.length values <= sum_asked (asked_for l))%nat)).
Proof.
  intros V l values H1. apply (lock_result SHead slice_body slice_at (fun _ => True)); auto.
  - intros n vs _. exists 0%nat. repeat split; lia.
  - apply slice_out.
  - apply slice_step.
  - apply Forall_forall. auto.
Qed.
Lemma one_subscriber_bool : forall l, forallb (fun x => match x with RSpawn (S _) _ => false | _ => true end) l = true -> one_subscriber l.
Proof. intros l H s n Hs. rewrite forallb_forall in H. specialize (H _ Hs). now destruct s. Qed.
(** Both goroutines want the lock while the first one is in the middle of its loop. *)
Definition c81_ops : list race_op :=
  [RSpawn 0 2; RStep 0; RStep 0; RStep 0; RSpawn 0 3; RStep 1; RStep 0; RStep 1; RStep 0; RStep 0] ++ repeat (RStep 1) 12.
Example C81_interleaving_example : one_subscriber c81_ops /\ all_returned (race_run QStart resp_body c81_ops [5; 6; 7; 8]) /\
  rc_next (race_run QStart resp_body c81_ops [5; 6; 7; 8]) = [(0%nat, 5); (0%nat, 6); (0%nat, 7); (0%nat, 8)].
Proof.
  split; [apply one_subscriber_bool; reflexivity|]. split; [|vm_compute; reflexivity].
  intros g H. vm_compute in H. destruct H as [<-|[<-|[]]]; reflexivity.
Qed.
Definition c53_ops : list race_op := [RSpawn 0 1; RSpawn 0 2] ++ flat_map (fun _ => [RStep 0; RStep 1]) (seq 0 20).
Example C53_interleaving_example : one_subscriber c53_ops /\ all_returned (race_run SHead slice_body c53_ops [5; 6]) /\
  rc_next (race_run SHead slice_body c53_ops [5; 6]) = [(0%nat, 5); (0%nat, 6)] /\ rc_complete (race_run SHead slice_body c53_ops [5; 6]) = [0%nat].
Proof.
  split; [apply one_subscriber_bool; reflexivity|]. split; [|split; vm_compute; reflexivity].
  intros g H. vm_compute in H. destruct H as [<-|[<-|[]]]; reflexivity.
Qed.

(** [FromSlice] keeps what is left in a variable that all subscriptions of the
    flux share, while every subscription has its own mutex: with two of them the
    first value can reach both and the second none, or the program panics. *)
Theorem C53_two_subscriptions_refuted : forall V (a b : V) rest,
  (exists l, asked_for l = [1; 1]%Z /\ let c := race_run SHead slice_body l (a :: b :: rest) in
     all_returned c /\ rc_next c = [(0%nat, a); (1%nat, a)] /\ rc_slice c = rest /\ rc_panic c = false) /\
  (exists l, asked_for l = [1; 1]%Z /\ rc_panic (race_run SHead slice_body l [a]) = true).
Proof.
  intros V a b rest. split.
  - exists ([RSpawn 0 1; RSpawn 1 1] ++ flat_map (fun _ => [RStep 0; RStep 1]) (seq 0 7)). split; [reflexivity|]. cbv zeta.
    split; [|destruct rest; vm_compute; repeat split]. intros g H.
    assert (X : map g_phase (rc_go (race_run SHead slice_body ([RSpawn 0 1; RSpawn 1 1] ++ flat_map (fun _ => [RStep 0; RStep 1]) (seq 0 7)) (a :: b :: rest))) = [GReturned; GReturned])
      by (destruct rest; vm_compute; reflexivity).
    apply (in_map g_phase) in H. rewrite X in H. destruct H as [H|[H|[]]]; now rewrite <- H.
  - exists ([RSpawn 0 1; RSpawn 1 1] ++ flat_map (fun _ => [RStep 0; RStep 1]) (seq 0 4)). split; reflexivity.
Qed.
Print Assumptions C81_any_interleaving.
Print Assumptions C53_any_interleaving.
Print Assumptions C53_two_subscriptions_refuted.
