(** C69-C72, C80: UUIDs. *)
From Coq Require Zquot.
From Verif Require Import Base BaseFacts FramesModel UuidModel.
Local Ltac Zify.zify_post_hook ::= Z.div_mod_to_equations.

(** ** Specification of the text forms *)
Definition hexval (c : N) : option N :=
  if (48 <=? c) && (c <=? 57) then Some (c - 48)
  else if (65 <=? c) && (c <=? 70) then Some (c - 55)
  else if (97 <=? c) && (c <=? 102) then Some (c - 87)
  else None.
(** The text [t] is made of two hexadecimal digits, in any case, for each byte of [u]. *)
Inductive spells : bytes -> bytes -> Prop :=
| spells_nil : spells [] []
| spells_cons a b x y u t : hexval a = Some x -> hexval b = Some y -> spells u t -> spells (16 * x + y :: u) (a :: b :: t).
Definition is_dashed (u s : bytes) : Prop :=
  exists u1 u2 u3 u4 u5 t1 t2 t3 t4 t5,
    u = u1 ++ u2 ++ u3 ++ u4 ++ u5 /\ s = t1 ++ [45] ++ t2 ++ [45] ++ t3 ++ [45] ++ t4 ++ [45] ++ t5 /\
    spells u1 t1 /\ spells u2 t2 /\ spells u3 t3 /\ spells u4 t4 /\ spells u5 t5 /\
    List.length u1 = 4%nat /\ List.length u2 = 2%nat /\ List.length u3 = 2%nat /\ List.length u4 = 2%nat /\ List.length u5 = 6%nat.
(** Two texts that differ in the case of letters only. *)
Definition is_letter (c : N) : Prop := 65 <= c <= 90 \/ 97 <= c <= 122.
Definition same_char (a b : N) : Prop := a = b \/ is_letter a /\ is_letter b /\ (a = b + 32 \/ b = a + 32).
Definition same_text (s t : bytes) : Prop := Forall2 same_char s t.
Inductive form (u : bytes) : bytes -> Prop :=
| form_raw s : spells u s -> List.length u = 16%nat -> form u s
| form_dashed s : is_dashed u s -> form u s
| form_urn p s : same_text [117; 114; 110; 58; 117; 117; 105; 100; 58] p -> is_dashed u s -> form u (p ++ s)
| form_enclosed a s b : is_dashed u s -> form u (a :: s ++ [b]).

(** ** Digits *)
Fixpoint upto (n : nat) : list N := match n with O => [] | S n' => upto n' ++ [N.of_nat n'] end.
Lemma upto_in : forall n x, x < N.of_nat n -> In x (upto n).
Proof. induction n as [|n IH]; intros x H; [lia|]. cbn [upto]. apply in_app_iff. destruct (N.eq_dec x (N.of_nat n)) as [->|Hn]; [right; now left|left; apply IH; lia]. Qed.
Definition bytes256 : list N := Eval vm_compute in upto 256.
Lemma bytes256_in : forall x, x < 256 -> In x bytes256.
Proof. intros x H. change bytes256 with (upto 256). apply upto_in. exact H. Qed.
Definition optN_eqb (a b : option N) : bool := match a, b with Some x, Some y => x =? y | None, None => true | _, _ => false end.
Lemma optN_eqb_eq : forall a b, optN_eqb a b = true -> a = b.
Proof. intros [x|] [y|] H; try discriminate H; auto. cbn in H. apply N.eqb_eq in H. now subst. Qed.
Lemma xvalues_spec : forall c, c < 256 -> nth (N.to_nat c) xvalues 255 = match hexval c with Some d => d | None => 255 end.
Proof.
  assert (H : forallb (fun c => nth (N.to_nat c) xvalues 255 =? match hexval c with Some d => d | None => 255 end) bytes256 = true) by (vm_compute; reflexivity).
  intros c Hc. rewrite forallb_forall in H. apply N.eqb_eq. apply H. now apply bytes256_in.
Qed.
Lemma hexval_small : forall c d, hexval c = Some d -> d < 16.
Proof. intros c d H. unfold hexval in H. destruct ((48 <=? c) && (c <=? 57)) eqn:E1; [injection H as <-; lia|]. destruct ((65 <=? c) && (c <=? 70)) eqn:E2; [injection H as <-; lia|]. destruct ((97 <=? c) && (c <=? 102)) eqn:E3; [injection H as <-; lia|discriminate H]. Qed.
Lemma nibbles : forall x y, x < 16 -> y < 16 -> N.lor (u8 (N.shiftl x 4)) y = 16 * x + y.
Proof.
  assert (H : forallb (fun x => forallb (fun y => N.lor (u8 (N.shiftl x 4)) y =? 16 * x + y) (upto 16)) (upto 16) = true) by (vm_compute; reflexivity).
  intros x y Hx Hy. rewrite forallb_forall in H. specialize (H x (upto_in 16 x Hx)). rewrite forallb_forall in H. apply N.eqb_eq, H, upto_in, Hy.
Qed.
Lemma xtob_spec : forall a b, a < 256 -> b < 256 -> xtob a b = match hexval a, hexval b with Some x, Some y => Some (16 * x + y) | _, _ => None end.
Proof.
  intros a b Ha Hb. unfold xtob. rewrite !xvalues_spec by assumption. destruct (hexval a) as [x|] eqn:Ea; [|reflexivity]. apply hexval_small in Ea. destruct (hexval b) as [y|] eqn:Eb.
  - apply hexval_small in Eb. destruct (N.eqb_spec x 255); [lia|]. destruct (N.eqb_spec y 255); [lia|]. cbn [negb andb]. now rewrite nibbles.
  - cbn [N.eqb Pos.eqb negb]. now rewrite andb_false_r.
Qed.
Fixpoint unspell (n : nat) (t : bytes) : option bytes :=
  match n, t with
  | O, _ => Some []
  | S n', a :: b :: t' => match hexval a, hexval b with Some x, Some y => match unspell n' t' with Some u => Some (16 * x + y :: u) | None => None end | _, _ => None end
  | _, _ => None
  end.
Lemma spells_length : forall u t, spells u t -> List.length t = (2 * List.length u)%nat.
Proof. induction 1; cbn [List.length]; lia. Qed.
Lemma unspell_spells : forall n t u, List.length t = (2 * n)%nat -> (unspell n t = Some u <-> spells u t /\ List.length u = n).
Proof.
  induction n as [|n IH]; intros t u Hl.
  - destruct t; [|discriminate Hl]. cbn [unspell]. split; [intros E; injection E as <-; split; [constructor|reflexivity]|]. intros [H _]. inversion H. reflexivity.
  - destruct t as [|a [|b t]]; [cbn in Hl; lia..|]. cbn [unspell]. specialize (IH t). cbn [List.length] in Hl. split.
    + destruct (hexval a) as [x|] eqn:Ea; [|discriminate]. destruct (hexval b) as [y|] eqn:Eb; [|discriminate]. destruct (unspell n t) as [v|] eqn:Ev; [|discriminate]. intros E. injection E as <-.
      destruct (proj1 (IH v ltac:(lia)) eq_refl) as [H1 H2]. split; [now constructor|cbn; lia].
    + intros [H1 H2]. inversion H1 as [|? ? x y u' ? Ha Hb Hs]; subst. rewrite Ha, Hb. cbn [List.length] in H2. rewrite (proj2 (IH u' ltac:(lia))); [reflexivity|]. split; [exact Hs|lia].
Qed.
(** Reading pairs at consecutive positions. *)
Definition run_at (p n : nat) : list nat := map (fun i => p + i * 2)%nat (seq 0 n).
Lemma run_at_S : forall p n, run_at p (S n) = p :: run_at (S (S p)) n.
Proof.
  intros p n. unfold run_at. cbn [seq map]. rewrite Nat.mul_0_l, Nat.add_0_r. f_equal. rewrite <- seq_shift, map_map. apply map_ext. intros i. lia.
Qed.
Lemma index_app : forall pre x post, index (pre ++ x :: post) (List.length pre) = Ok x.
Proof. intros. unfold index. rewrite nth_error_app2, Nat.sub_diag by lia. reflexivity. Qed.
Lemma pairs_app : forall s p q, pairs s (p ++ q) = (a <- pairs s p ;; b <- pairs s q ;; Ok (a ++ b)).
Proof.
  intros s p q. induction p as [|x p IH]; cbn [app pairs]; [cbn [bind]; destruct (pairs s q); reflexivity|]. destruct (index s x); cbn [bind]; auto. destruct (index s (S x)); cbn [bind]; auto. destruct (xtob a a0); auto. rewrite IH.
  destruct (pairs s p); cbn [bind]; auto. destruct (pairs s q); reflexivity.
Qed.
Lemma pairs_run : forall n pre t post, List.length t = (2 * n)%nat -> Forall (fun c => c < 256) t ->
  pairs (pre ++ t ++ post) (run_at (List.length pre) n) = match unspell n t with Some u => Ok u | None => Err "invalid UUID format" end.
Proof.
  induction n as [|n IH]; intros pre t post Hl Ht; [reflexivity|]. destruct t as [|a [|b t]]; [cbn in Hl; lia..|]. rewrite run_at_S. cbn [pairs app]. inversion Ht as [|? ? Ha Ht1]; subst. inversion Ht1 as [|? ? Hb Ht2]; subst.
  rewrite index_app. cbn [bind]. replace (pre ++ a :: b :: t ++ post) with ((pre ++ [a]) ++ b :: t ++ post) by (rewrite <- app_assoc; reflexivity).
  replace (S (List.length pre)) with (List.length (pre ++ [a])) by (rewrite app_length; cbn; lia). rewrite index_app. cbn [bind]. rewrite xtob_spec by assumption. cbn [unspell].
  destruct (hexval a) as [x|]; [|reflexivity]. destruct (hexval b) as [y|]; [|reflexivity].
  replace ((pre ++ [a]) ++ b :: t ++ post) with ((pre ++ [a; b]) ++ t ++ post) by (rewrite <- !app_assoc; reflexivity). replace (S (List.length (pre ++ [a]))) with (List.length (pre ++ [a; b])) by (rewrite !app_length; cbn; lia).
  rewrite IH; [|cbn in Hl; lia|exact Ht2]. destruct (unspell n t); reflexivity.
Qed.
(** Dividing a text into its parts. *)
Lemma cut : forall (s : bytes) n, (n <= List.length s)%nat -> exists a b, s = a ++ b /\ List.length a = n.
Proof. intros s n H. exists (firstn n s), (skipn n s). rewrite firstn_skipn, firstn_length. split; [reflexivity|lia]. Qed.
Lemma parse_dashed_parts : forall t1 d1 t2 d2 t3 d3 t4 d4 t5 post,
  List.length t1 = 8%nat -> List.length t2 = 4%nat -> List.length t3 = 4%nat -> List.length t4 = 4%nat -> List.length t5 = 12%nat ->
  Forall (fun c => c < 256) (t1 ++ t2 ++ t3 ++ t4 ++ t5) ->
  parse_dashed (t1 ++ d1 :: t2 ++ d2 :: t3 ++ d3 :: t4 ++ d4 :: t5 ++ post) =
  if negb (d1 =? 45) || negb (d2 =? 45) || negb (d3 =? 45) || negb (d4 =? 45) then Err "invalid UUID format"
  else match unspell 4 t1, unspell 2 t2, unspell 2 t3, unspell 2 t4, unspell 6 t5 with
       | Some u1, Some u2, Some u3, Some u4, Some u5 => Ok (u1 ++ u2 ++ u3 ++ u4 ++ u5)
       | _, _, _, _, _ => Err "invalid UUID format"
       end.
Proof.
  intros t1 d1 t2 d2 t3 d3 t4 d4 t5 post L1 L2 L3 L4 L5 B. rewrite !Forall_app in B. destruct B as (B1 & B2 & B3 & B4 & B5). set (s := t1 ++ _).
  assert (E1 : s = t1 ++ d1 :: t2 ++ d2 :: t3 ++ d3 :: t4 ++ d4 :: t5 ++ post) by reflexivity.
  assert (E2 : s = (t1 ++ d1 :: t2) ++ d2 :: t3 ++ d3 :: t4 ++ d4 :: t5 ++ post) by (rewrite E1, <- !app_assoc; reflexivity).
  assert (E3 : s = (t1 ++ d1 :: t2 ++ d2 :: t3) ++ d3 :: t4 ++ d4 :: t5 ++ post) by (rewrite E1, <- !app_assoc; cbn [app]; rewrite <- !app_assoc; reflexivity).
  assert (E4 : s = (t1 ++ d1 :: t2 ++ d2 :: t3 ++ d3 :: t4) ++ d4 :: t5 ++ post) by (rewrite E1, <- !app_assoc; cbn [app]; rewrite <- !app_assoc; cbn [app]; rewrite <- !app_assoc; reflexivity).
  assert (I1 : index s 8 = Ok d1) by (rewrite E1; replace 8%nat with (List.length t1) by lia; apply index_app).
  assert (I2 : index s 13 = Ok d2) by (rewrite E2; replace 13%nat with (List.length (t1 ++ d1 :: t2)) by (rewrite app_length; cbn [List.length]; lia); apply index_app).
  assert (I3 : index s 18 = Ok d3) by (rewrite E3; replace 18%nat with (List.length (t1 ++ d1 :: t2 ++ d2 :: t3)) by (rewrite !app_length; cbn [List.length]; rewrite !app_length; cbn [List.length]; lia); apply index_app).
  assert (I4 : index s 23 = Ok d4) by (rewrite E4; replace 23%nat with (List.length (t1 ++ d1 :: t2 ++ d2 :: t3 ++ d3 :: t4)) by (rewrite !app_length; cbn [List.length]; rewrite !app_length; cbn [List.length]; rewrite !app_length; cbn [List.length]; lia); apply index_app).
  unfold parse_dashed. rewrite I1, I2, I3, I4. cbn [bind]. unfold dash. destruct (negb (d1 =? 45) || negb (d2 =? 45) || negb (d3 =? 45) || negb (d4 =? 45)); [reflexivity|].
  change positions with (run_at 0 4 ++ run_at 9 2 ++ run_at 14 2 ++ run_at 19 2 ++ run_at 24 6). rewrite !pairs_app.
  assert (P1 : pairs s (run_at 0 4) = match unspell 4 t1 with Some u => Ok u | None => Err "invalid UUID format" end) by (apply (pairs_run 4 [] t1); [lia|exact B1]).
  assert (P2 : pairs s (run_at 9 2) = match unspell 2 t2 with Some u => Ok u | None => Err "invalid UUID format" end).
  { replace s with ((t1 ++ [d1]) ++ t2 ++ (d2 :: t3 ++ d3 :: t4 ++ d4 :: t5 ++ post)) by (rewrite E1, <- !app_assoc; reflexivity). replace 9%nat with (List.length (t1 ++ [d1])) by (rewrite app_length; cbn; lia). apply pairs_run; [lia|exact B2]. }
  assert (P3 : pairs s (run_at 14 2) = match unspell 2 t3 with Some u => Ok u | None => Err "invalid UUID format" end).
  { replace s with ((t1 ++ d1 :: t2 ++ [d2]) ++ t3 ++ (d3 :: t4 ++ d4 :: t5 ++ post)) by (rewrite E1, <- !app_assoc; cbn [app]; rewrite <- !app_assoc; reflexivity). replace 14%nat with (List.length (t1 ++ d1 :: t2 ++ [d2])) by (rewrite !app_length; cbn [List.length]; rewrite !app_length; cbn; lia). apply pairs_run; [lia|exact B3]. }
  assert (P4 : pairs s (run_at 19 2) = match unspell 2 t4 with Some u => Ok u | None => Err "invalid UUID format" end).
  { replace s with ((t1 ++ d1 :: t2 ++ d2 :: t3 ++ [d3]) ++ t4 ++ (d4 :: t5 ++ post)) by (rewrite E1, <- !app_assoc; cbn [app]; rewrite <- !app_assoc; cbn [app]; rewrite <- !app_assoc; reflexivity).
    replace 19%nat with (List.length (t1 ++ d1 :: t2 ++ d2 :: t3 ++ [d3])) by (rewrite !app_length; cbn [List.length]; rewrite !app_length; cbn [List.length]; rewrite !app_length; cbn; lia). apply pairs_run; [lia|exact B4]. }
  assert (P5 : pairs s (run_at 24 6) = match unspell 6 t5 with Some u => Ok u | None => Err "invalid UUID format" end).
  { replace s with ((t1 ++ d1 :: t2 ++ d2 :: t3 ++ d3 :: t4 ++ [d4]) ++ t5 ++ post) by (rewrite E1, <- !app_assoc; cbn [app]; rewrite <- !app_assoc; cbn [app]; rewrite <- !app_assoc; cbn [app]; rewrite <- !app_assoc; reflexivity).
    replace 24%nat with (List.length (t1 ++ d1 :: t2 ++ d2 :: t3 ++ d3 :: t4 ++ [d4])) by (rewrite !app_length; cbn [List.length]; rewrite !app_length; cbn [List.length]; rewrite !app_length; cbn [List.length]; rewrite !app_length; cbn; lia). apply pairs_run; [lia|exact B5]. }
  rewrite P1, P2, P3, P4, P5. destruct (unspell 4 t1); [|reflexivity]. destruct (unspell 2 t2); [|reflexivity]. destruct (unspell 2 t3); [|reflexivity]. destruct (unspell 2 t4); [|reflexivity]. destruct (unspell 6 t5); reflexivity.
Qed.
(** A text of 36 or more characters is accepted if and only if the first 36 are
    a dashed form, and is never a panic. *)
Lemma parse_dashed_spec : forall s post, List.length s = 36%nat -> Forall (fun c => c < 256) s ->
  (exists e, parse_dashed (s ++ post) = Err e /\ forall u, ~ is_dashed u s) \/ (exists u, parse_dashed (s ++ post) = Ok u /\ is_dashed u s /\ forall v, is_dashed v s -> v = u).
Proof.
  intros s post L B.
  destruct (cut s 8 ltac:(lia)) as (t1 & r1 & -> & L1). rewrite app_length in L. destruct r1 as [|d1 r1]; [cbn in L; lia|]. cbn [List.length] in L.
  destruct (cut r1 4 ltac:(lia)) as (t2 & r2 & -> & L2). rewrite app_length in L. destruct r2 as [|d2 r2]; [cbn in L; lia|]. cbn [List.length] in L.
  destruct (cut r2 4 ltac:(lia)) as (t3 & r3 & -> & L3). rewrite app_length in L. destruct r3 as [|d3 r3]; [cbn in L; lia|]. cbn [List.length] in L.
  destruct (cut r3 4 ltac:(lia)) as (t4 & r4 & -> & L4). rewrite app_length in L. destruct r4 as [|d4 t5]; [cbn in L; lia|]. cbn [List.length] in L. assert (L5 : List.length t5 = 12%nat) by lia. clear L.
  assert (B' : Forall (fun c => c < 256) (t1 ++ t2 ++ t3 ++ t4 ++ t5)).
  { repeat match goal with H : Forall _ (_ ++ _) |- _ => apply Forall_app in H; destruct H | H : Forall _ (_ :: _) |- _ => apply Forall_cons_iff in H; destruct H end. rewrite !Forall_app. auto. }
  assert (D : forall u, is_dashed u (t1 ++ d1 :: t2 ++ d2 :: t3 ++ d3 :: t4 ++ d4 :: t5) <->
     (d1 = 45 /\ d2 = 45 /\ d3 = 45 /\ d4 = 45 /\ exists u1 u2 u3 u4 u5, unspell 4 t1 = Some u1 /\ unspell 2 t2 = Some u2 /\ unspell 2 t3 = Some u3 /\ unspell 2 t4 = Some u4 /\ unspell 6 t5 = Some u5 /\ u = u1 ++ u2 ++ u3 ++ u4 ++ u5)).
  { intros u. split.
    - intros (u1 & u2 & u3 & u4 & u5 & a1 & a2 & a3 & a4 & a5 & -> & E & S1 & S2 & S3 & S4 & S5 & M1 & M2 & M3 & M4 & M5).
      pose proof (spells_length _ _ S1). pose proof (spells_length _ _ S2). pose proof (spells_length _ _ S3). pose proof (spells_length _ _ S4). cbn [app] in E.
      apply app_inj_len in E; [|lia]. destruct E as [<- E]. injection E as -> E. apply app_inj_len in E; [|lia]. destruct E as [<- E]. injection E as -> E. apply app_inj_len in E; [|lia]. destruct E as [<- E]. injection E as -> E.
      apply app_inj_len in E; [|lia]. destruct E as [<- E]. injection E as -> <-. repeat (split; [reflexivity|]). exists u1, u2, u3, u4, u5.
      repeat split; auto; apply unspell_spells; auto; lia.
    - intros (-> & -> & -> & -> & u1 & u2 & u3 & u4 & u5 & E1 & E2 & E3 & E4 & E5 & ->). apply unspell_spells in E1, E2, E3, E4, E5; [|lia..]. exists u1, u2, u3, u4, u5, t1, t2, t3, t4, t5. intuition. }
  replace ((t1 ++ d1 :: t2 ++ d2 :: t3 ++ d3 :: t4 ++ d4 :: t5) ++ post) with (t1 ++ d1 :: t2 ++ d2 :: t3 ++ d3 :: t4 ++ d4 :: t5 ++ post) by (repeat (rewrite <- app_assoc; cbn [app]); reflexivity).
  rewrite parse_dashed_parts by assumption.
  destruct (N.eqb_spec d1 45) as [->|H1]; [|left; eexists; split; [reflexivity|]; intros u Hu; apply D in Hu; destruct Hu as (X & _); congruence].
  destruct (N.eqb_spec d2 45) as [->|H2]; [|left; eexists; split; [reflexivity|]; intros u Hu; apply D in Hu; destruct Hu as (_ & X & _); congruence].
  destruct (N.eqb_spec d3 45) as [->|H3]; [|left; eexists; split; [reflexivity|]; intros u Hu; apply D in Hu; destruct Hu as (_ & _ & X & _); congruence].
  destruct (N.eqb_spec d4 45) as [->|H4]; [|left; eexists; split; [reflexivity|]; intros u Hu; apply D in Hu; destruct Hu as (_ & _ & _ & X & _); congruence].
  cbn [negb orb].
  destruct (unspell 4 t1) as [u1|]; [|left; eexists; split; [reflexivity|]; intros u Hu; apply D in Hu; destruct Hu as (_ & _ & _ & _ & ? & ? & ? & ? & ? & X & _); discriminate X].
  destruct (unspell 2 t2) as [u2|]; [|left; eexists; split; [reflexivity|]; intros u Hu; apply D in Hu; destruct Hu as (_ & _ & _ & _ & ? & ? & ? & ? & ? & _ & X & _); discriminate X].
  destruct (unspell 2 t3) as [u3|]; [|left; eexists; split; [reflexivity|]; intros u Hu; apply D in Hu; destruct Hu as (_ & _ & _ & _ & ? & ? & ? & ? & ? & _ & _ & X & _); discriminate X].
  destruct (unspell 2 t4) as [u4|]; [|left; eexists; split; [reflexivity|]; intros u Hu; apply D in Hu; destruct Hu as (_ & _ & _ & _ & ? & ? & ? & ? & ? & _ & _ & _ & X & _); discriminate X].
  destruct (unspell 6 t5) as [u5|]; [|left; eexists; split; [reflexivity|]; intros u Hu; apply D in Hu; destruct Hu as (_ & _ & _ & _ & ? & ? & ? & ? & ? & _ & _ & _ & _ & X & _); discriminate X].
  right. exists (u1 ++ u2 ++ u3 ++ u4 ++ u5). split; [reflexivity|]. split.
  - apply D. repeat (split; [reflexivity|]). exists u1, u2, u3, u4, u5. repeat split.
  - intros v Hv. apply D in Hv. destruct Hv as (_ & _ & _ & _ & v1 & v2 & v3 & v4 & v5 & E1 & E2 & E3 & E4 & E5 & ->). congruence.
Qed.
Definition char_ok (s : bytes) : Prop := Forall (fun c => c < 256) s.
Lemma Forall2_length : forall A B (R : A -> B -> Prop) l m, Forall2 R l m -> List.length l = List.length m.
Proof. induction 1; cbn; congruence. Qed.
Arguments Forall2_length {A B R l m}.
Lemma is_dashed_length : forall u s, is_dashed u s -> List.length s = 36%nat.
Proof.
  intros u s (u1 & u2 & u3 & u4 & u5 & t1 & t2 & t3 & t4 & t5 & _ & -> & S1 & S2 & S3 & S4 & S5 & M1 & M2 & M3 & M4 & M5). apply spells_length in S1, S2, S3, S4, S5. rewrite !app_length. cbn [List.length]. lia.
Qed.
Lemma form_length : forall u s, form u s -> In (List.length s) [32; 36; 45; 38]%nat.
Proof.
  intros u s H. destruct H as [s H Hl|s H|p s Hp H|a s b H].
  - apply spells_length in H. left. lia.
  - apply is_dashed_length in H. right; left. lia.
  - apply is_dashed_length in H. apply Forall2_length in Hp. right; right; left. rewrite app_length, <- Hp, H. reflexivity.
  - apply is_dashed_length in H. do 3 right. left. cbn [List.length]. rewrite app_length, H. reflexivity.
Qed.
Lemma lower_same : forall x c, 97 <= x <= 122 \/ x = 58 -> (lower c = x <-> same_char x c).
Proof.
  intros x c Hx. unfold lower, same_char, is_letter. destruct ((65 <=? c) && (c <=? 90)) eqn:E; lia.
Qed.
Lemma lower_urn : forall l p, Forall (fun x => 97 <= x <= 122 \/ x = 58) l -> (map lower p = l <-> same_text l p).
Proof.
  induction l as [|x l IH]; intros p Hl; split; intros H.
  - destruct p; [constructor|discriminate H].
  - inversion H. reflexivity.
  - inversion Hl as [|? ? Hx Hl']; subst. destruct p as [|c p]; [discriminate H|]. cbn [map] in H. injection H as Hc Hp. constructor; [now apply lower_same|now apply IH].
  - inversion Hl as [|? ? Hx Hl']; subst. inversion H as [|? c ? p' Hc Hp]; subst. cbn [map]. f_equal; [now apply lower_same|now apply IH].
Qed.
Lemma urn_chars : Forall (fun x => 97 <= x <= 122 \/ x = 58) urn_prefix.
Proof. unfold urn_prefix. repeat constructor; lia. Qed.
Lemma parse_bytes_eq : forall s, parse_bytes s = parse s.
Proof. intros s. reflexivity. Qed.

(** C70: the accepted texts *)
Theorem C70_accepted_forms : forall s, char_ok s ->
  (forall u, parse s = Ok u <-> form u s) /\ parse s <> Panic /\ (forall u, parse_bytes s = Ok u <-> form u s) /\ parse_bytes s <> Panic.
Proof.
  intros s B. change (parse_bytes s) with (parse s). enough (X : (forall u, parse s = Ok u <-> form u s) /\ parse s <> Panic) by (destruct X; auto).
  unfold parse. destruct (Nat.eqb_spec (List.length s) 36) as [L|L1].
  { destruct (parse_dashed_spec s [] L B) as [(e & E & H)|(u & E & H & Hu)]; rewrite app_nil_r in E; rewrite E; (split; [|discriminate]); intros v; split; intros K; try discriminate K.
    - exfalso. destruct K as [t K Kl|t K|p t Kp K|a t b K].
      + apply spells_length in K. lia.
      + now apply H in K.
      + apply is_dashed_length in K. apply Forall2_length in Kp. rewrite app_length in L. cbn [List.length] in Kp. lia.
      + apply is_dashed_length in K. cbn [List.length] in L. rewrite app_length in L. cbn in L. lia.
    - injection K as <-. now apply form_dashed.
    - f_equal. symmetry. apply Hu. destruct K as [t K Kl|t K|p t Kp K|a t b K].
      + apply spells_length in K. lia.
      + exact K.
      + apply is_dashed_length in K. apply Forall2_length in Kp. rewrite app_length in L. cbn [List.length] in Kp. lia.
      + apply is_dashed_length in K. cbn [List.length] in L. rewrite app_length in L. cbn in L. lia. }
  destruct (Nat.eqb_spec (List.length s) 45) as [L|L2].
  { destruct (cut s 9 ltac:(lia)) as (p & t & -> & Lp). rewrite app_length in L. apply Forall_app in B. destruct B as [Bp Bt].
    replace (firstn 9 (p ++ t)) with p by (rewrite firstn_app, Lp, Nat.sub_diag, app_nil_r, firstn_all2; [reflexivity|lia]). replace (skipn 9 (p ++ t)) with t by (rewrite skipn_app, Lp, Nat.sub_diag, (skipn_all2 p) by lia; reflexivity).
    assert (K45 : forall v, form v (p ++ t) -> same_text urn_prefix p /\ is_dashed v t).
    { intros v K. remember (p ++ t) as w eqn:Ew. destruct K as [t' K Kl|t' K|p' t' Kp K|a t' b K].
      - subst t'. apply spells_length in K. rewrite app_length in K. lia.
      - subst t'. apply is_dashed_length in K. rewrite app_length in K. lia.
      - pose proof (Forall2_length Kp) as Lp'. apply app_inj_len in Ew; [|cbn in Lp'; lia]. destruct Ew as [-> ->]. now split.
      - apply is_dashed_length in K. apply (f_equal (@List.length N)) in Ew. cbn [List.length] in Ew. rewrite !app_length in Ew. cbn [List.length] in Ew. lia. }
    destruct (list_eq_dec N.eq_dec (map lower p) urn_prefix) as [Eu|Nu].
    - apply lower_urn in Eu; [|exact urn_chars]. destruct (parse_dashed_spec t [] ltac:(lia) Bt) as [(e & E & H)|(u & E & H & Hu)]; rewrite app_nil_r in E; rewrite E; (split; [|discriminate]); intros v; split; intros K; try discriminate K.
      + exfalso. apply K45 in K. destruct K as [_ K]. now apply H in K.
      + injection K as <-. now apply form_urn.
      + f_equal. symmetry. apply Hu. now apply K45.
    - split; [|discriminate]. intros v. split; intros K; [discriminate K|]. exfalso. apply Nu, lower_urn; [exact urn_chars|]. now apply K45 in K. }
  destruct (Nat.eqb_spec (List.length s) 38) as [L|L3].
  { destruct s as [|a s]; [discriminate L|]. cbn [skipn]. destruct (cut s 36 ltac:(cbn in L; lia)) as (t & r & -> & Lt). cbn [List.length] in L. rewrite app_length in L. destruct r as [|b [|? r]]; [cbn in L; lia| |cbn in L; lia].
    apply Forall_cons_iff in B. destruct B as [_ B]. apply Forall_app in B. destruct B as [B _].
    assert (K38 : forall v, form v (a :: t ++ [b]) -> is_dashed v t).
    { intros v K. remember (a :: t ++ [b]) as w eqn:Ew. destruct K as [t' K Kl|t' K|p' t' Kp K|a' t' b' K].
      - subst t'. apply spells_length in K. cbn [List.length] in K. rewrite app_length in K. cbn in K. lia.
      - subst t'. apply is_dashed_length in K. cbn [List.length] in K. rewrite app_length in K. cbn in K. lia.
      - apply Forall2_length in Kp. apply is_dashed_length in K. apply (f_equal (@List.length N)) in Ew. cbn [List.length] in Ew, Kp. rewrite !app_length in Ew. cbn [List.length] in Ew. lia.
      - injection Ew as _ Ew. apply app_inj_tail in Ew. destruct Ew as [-> _]. exact K. }
    destruct (parse_dashed_spec t [b] Lt B) as [(e & E & H)|(u & E & H & Hu)]; rewrite E; (split; [|discriminate]); intros v; split; intros K; try discriminate K.
    - apply K38 in K. now apply H in K.
    - injection K as <-. now apply form_enclosed.
    - f_equal. symmetry. now apply Hu, K38. }
  destruct (Nat.eqb_spec (List.length s) 32) as [L|L4].
  { assert (P : pairs s (map (fun i => i * 2)%nat (seq 0 16)) = match unspell 16 s with Some u => Ok u | None => Err "invalid UUID format" end).
    { change (map (fun i => i * 2)%nat (seq 0 16)) with (run_at 0 16). pose proof (pairs_run 16 [] s [] L B) as P. rewrite app_nil_r in P. exact P. }
    rewrite P. assert (U : forall v, form v s -> unspell 16 s = Some v).
    { intros v K. apply unspell_spells; [lia|]. destruct K as [t' K Kl|t' K|p' t' Kp K|a' t' b' K].
      - now split.
      - apply is_dashed_length in K. lia.
      - apply Forall2_length in Kp. apply is_dashed_length in K. rewrite app_length in L. lia.
      - apply is_dashed_length in K. cbn [List.length] in L. rewrite app_length in L. cbn in L. lia. }
    destruct (unspell 16 s) as [u|] eqn:Eu; (split; [|discriminate]); intros v; split; intros K; try discriminate K.
    - injection K as <-. apply unspell_spells in Eu; [|lia]. now apply form_raw.
    - apply U in K. now injection K as <-.
    - apply U in K. discriminate K. }
  split; [|discriminate]. intros u. split; intros K; [discriminate K|]. apply form_length in K. cbn in K. exfalso. lia.
Qed.
(** The characters around the 38-character form need not be braces. *)
Theorem C70_braces_unchecked_refuted : exists s u, nth 0 s 0 <> 123 /\ nth 37 s 0 <> 125 /\ List.length s = 38%nat /\ parse s = Ok u.
Proof. exists ([88] ++ uuid_string (repeat 171 16) ++ [89]), (repeat 171 16). repeat split; discriminate. Qed.

(** C69: round trips *)
Definition is_uuid (u : bytes) : Prop := List.length u = 16%nat /\ char_ok u.
Lemma hexval_same : forall a b x, hexval a = Some x -> same_char a b -> hexval b = Some x.
Proof.
  intros a b x H [<-|(La & Lb & Hab)]; [exact H|]. rewrite <- H. unfold is_letter, hexval in *.
  destruct ((48 <=? a) && (a <=? 57)) eqn:E1; [lia|]. destruct ((65 <=? a) && (a <=? 70)) eqn:E2; destruct ((97 <=? a) && (a <=? 102)) eqn:E3; try discriminate H;
  destruct ((48 <=? b) && (b <=? 57)) eqn:F1; destruct ((65 <=? b) && (b <=? 70)) eqn:F2; destruct ((97 <=? b) && (b <=? 102)) eqn:F3; try lia; f_equal; lia.
Qed.
Lemma spells_same : forall u s, spells u s -> forall t, same_text s t -> spells u t.
Proof.
  induction 1 as [|a b x y u s Ha Hb Hs IH]; intros t Ht.
  - inversion Ht. constructor.
  - inversion Ht as [|? a' ? t1 Sa Ht1]; subst. inversion Ht1 as [|? b' ? t2 Sb Ht2]; subst. constructor; [eapply hexval_same; eauto..|auto].
Qed.
Lemma same_dash : forall b, same_char 45 b -> b = 45.
Proof. intros b [<-|(H & _)]; [reflexivity|]. unfold is_letter in H. lia. Qed.
Lemma dashed_same : forall u s, is_dashed u s -> forall t, same_text s t -> is_dashed u t.
Proof.
  intros u s (u1 & u2 & u3 & u4 & u5 & t1 & t2 & t3 & t4 & t5 & Eu & -> & S1 & S2 & S3 & S4 & S5 & M1 & M2 & M3 & M4 & M5) t Ht.
  apply Forall2_app_inv_l in Ht. destruct Ht as (v1 & r & H1 & Ht & ->). cbn [app] in Ht. inversion Ht as [|? c1 ? r1 D1 Hr]; subst. clear Ht. apply same_dash in D1. subst c1.
  apply Forall2_app_inv_l in Hr. destruct Hr as (v2 & r & H2 & Ht & ->). inversion Ht as [|? c2 ? r2 D2 Hr]; subst. clear Ht. apply same_dash in D2. subst c2.
  apply Forall2_app_inv_l in Hr. destruct Hr as (v3 & r & H3 & Ht & ->). inversion Ht as [|? c3 ? r3 D3 Hr]; subst. clear Ht. apply same_dash in D3. subst c3.
  apply Forall2_app_inv_l in Hr. destruct Hr as (v4 & r & H4 & Ht & ->). inversion Ht as [|? c4 ? v5 D4 H5]; subst. clear Ht. apply same_dash in D4. subst c4.
  exists u1, u2, u3, u4, u5, v1, v2, v3, v4, v5. repeat (split; [first [reflexivity | eapply spells_same; eauto | assumption]|]). assumption.
Qed.
Lemma same_ok : forall s t, same_text s t -> char_ok s -> char_ok t.
Proof.
  induction 1 as [|a b s t Hab _ IH]; intros H; [constructor|]. inversion H as [|? ? Ha Hs]; subst. constructor; [|now apply IH]. destruct Hab as [<-|(_ & Hb & _)]; [exact Ha|unfold is_letter in Hb; lia].
Qed.
Lemma hexdigit_val : forall d, d < 16 -> hexval (hexdigit d) = Some d.
Proof.
  intros d H. unfold hexdigit, hexval. destruct (N.ltb_spec d 10).
  - destruct ((48 <=? 48 + d) && (48 + d <=? 57)) eqn:E; [f_equal; lia|lia].
  - destruct ((48 <=? 87 + d) && (87 + d <=? 57)) eqn:E1; [lia|]. destruct ((65 <=? 87 + d) && (87 + d <=? 70)) eqn:E2; [lia|]. destruct ((97 <=? 87 + d) && (87 + d <=? 102)) eqn:E3; [f_equal; lia|lia].
Qed.
Lemma hexdigit_ok : forall d, d < 16 -> hexdigit d < 256.
Proof. intros d H. unfold hexdigit. destruct (d <? 10); lia. Qed.
Lemma hex_encode_spells : forall u, char_ok u -> spells u (hex_encode u) /\ char_ok (hex_encode u).
Proof.
  induction 1 as [|x u Hx Hu [IH1 IH2]]; [split; constructor|]. unfold hex_encode. cbn [flat_map app]. split.
  - replace x with (16 * (x / 16) + x mod 16) at 1 by lia. constructor; [apply hexdigit_val; lia..|exact IH1].
  - repeat constructor; [apply hexdigit_ok; lia..|exact IH2].
Qed.
Lemma string_parts : forall u, is_uuid u -> exists u1 u2 u3 u4 u5, u = u1 ++ u2 ++ u3 ++ u4 ++ u5 /\
  List.length u1 = 4%nat /\ List.length u2 = 2%nat /\ List.length u3 = 2%nat /\ List.length u4 = 2%nat /\ List.length u5 = 6%nat /\
  uuid_string u = hex_encode u1 ++ [45] ++ hex_encode u2 ++ [45] ++ hex_encode u3 ++ [45] ++ hex_encode u4 ++ [45] ++ hex_encode u5 /\ uuid_urn u = urn_prefix ++ uuid_string u.
Proof.
  intros u [L _]. do 17 (destruct u as [|?x u]; [try discriminate L|]); [|discriminate L].
  exists [x; x0; x1; x2], [x3; x4], [x5; x6], [x7; x8], [x9; x10; x11; x12; x13; x14]. repeat (split; [reflexivity|]). reflexivity.
Qed.
Lemma string_dashed : forall u, is_uuid u -> is_dashed u (uuid_string u) /\ char_ok (uuid_string u) /\ uuid_urn u = urn_prefix ++ uuid_string u.
Proof.
  intros u Hu. destruct (string_parts u Hu) as (u1 & u2 & u3 & u4 & u5 & E & L1 & L2 & L3 & L4 & L5 & Es & Eu). destruct Hu as [_ B]. rewrite E in B. unfold char_ok in B. rewrite !Forall_app in B. destruct B as (B1 & B2 & B3 & B4 & B5).
  apply hex_encode_spells in B1, B2, B3, B4, B5. split; [|split; [|exact Eu]].
  - exists u1, u2, u3, u4, u5. do 5 eexists. split; [exact E|]. split; [exact Es|]. intuition.
  - rewrite Es. unfold char_ok. rewrite !Forall_app. intuition; repeat constructor.
Qed.
(** Any spelling of the UUID [u]: its text, its URN, its text between two
    characters, or its bytes in hexadecimal, each in any letter case. *)
Inductive written (u : bytes) : bytes -> Prop :=
| w_text s : same_text (uuid_string u) s -> written u s
| w_urn s : same_text (uuid_urn u) s -> written u s
| w_braces s a b : a < 256 -> b < 256 -> same_text (uuid_string u) s -> written u ([a] ++ s ++ [b])
| w_raw s : char_ok s -> spells u s -> written u s.
Theorem C69_round_trip : forall u s, is_uuid u -> written u s -> parse s = Ok u /\ parse_bytes s = Ok u.
Proof.
  intros u s Hu H. destruct (string_dashed u Hu) as (D & B & Eu).
  assert (X : char_ok s /\ form u s).
  { destruct H as [s H|s H|s a b Ha Hb H|s Hs H].
    - split; [eapply same_ok; eauto|apply form_dashed; eapply dashed_same; eauto].
    - split; [apply (same_ok _ _ H); rewrite Eu; apply Forall_app; split; [unfold urn_prefix; repeat constructor|exact B]|]. rewrite Eu in H. apply Forall2_app_inv_l in H. destruct H as (p & t & Hp & Ht & ->). apply form_urn; [exact Hp|eapply dashed_same; eauto].
    - split; [|apply form_enclosed; eapply dashed_same; eauto]. cbn [app]. apply Forall_cons; [exact Ha|]. apply Forall_app. split; [eapply same_ok; eauto|]. repeat constructor. exact Hb.
    - split; [exact Hs|]. apply form_raw; [exact H|apply Hu]. }
  destruct X as [X1 X2]. destruct (C70_accepted_forms s X1) as (P1 & _ & P2 & _). split; [now apply P1|now apply P2].
Qed.
(** The text is the lower-case dashed form, the URN has the prefix before it,
    and texts tell UUIDs apart. *)
Theorem C69_text_form : forall u, is_uuid u -> is_dashed u (uuid_string u) /\ Forall (fun c => ~ 65 <= c <= 90) (uuid_string u) /\
  uuid_urn u = [117; 114; 110; 58; 117; 117; 105; 100; 58] ++ uuid_string u /\ (forall v, is_uuid v -> uuid_string v = uuid_string u \/ uuid_urn v = uuid_urn u -> v = u).
Proof.
  intros u Hu. destruct (string_dashed u Hu) as (D & B & Eu). split; [exact D|]. split; [|split; [exact Eu|]].
  - destruct (string_parts u Hu) as (u1 & u2 & u3 & u4 & u5 & _ & _ & _ & _ & _ & _ & Es & _). rewrite Es. assert (X : forall l, Forall (fun c => ~ 65 <= c <= 90) (hex_encode l)).
    { induction l as [|x l IH]; [constructor|]. unfold hex_encode. cbn [flat_map app]. repeat constructor; [| |exact IH]; unfold hexdigit; [destruct (N.ltb_spec (x / 16) 10)|destruct (N.ltb_spec (x mod 16) 10)]; lia. }
    rewrite !Forall_app. repeat split; auto; repeat constructor; lia.
  - intros v Hv H. assert (E : uuid_string v = uuid_string u).
    { destruct H as [H|H]; [exact H|]. rewrite Eu in H. destruct (string_dashed v Hv) as (_ & _ & Ev). rewrite Ev in H. now apply app_inv_head in H. }
    assert (R : forall x : bytes, same_text x x) by (intros x; induction x; constructor; [now left|auto]).
    destruct (C69_round_trip u (uuid_string u) Hu (w_text _ _ (R _))) as [P _]. destruct (C69_round_trip v (uuid_string v) Hv (w_text _ _ (R _))) as [P' _]. rewrite E, P in P'. now injection P' as <-.
Qed.
(** The binary form is the sixteen bytes and nothing else is accepted. *)
Theorem C69_binary : forall d u, unmarshal_binary d = Ok u <-> d = u /\ List.length u = 16%nat.
Proof.
  intros d u. unfold unmarshal_binary, len. destruct (N.eqb_spec (N.of_nat (List.length d)) 16) as [L|L]; split.
  - intros E. injection E as <-. split; [reflexivity|lia].
  - intros [-> _]. reflexivity.
  - discriminate.
  - intros [-> H]. lia.
Qed.
Example C69_example : exists u s, is_uuid u /\ written u s /\ s <> uuid_string u /\ parse s = Ok u.
Proof.
  set (u := [107; 167; 184; 16; 157; 173; 17; 209; 128; 180; 0; 192; 79; 212; 48; 200]).
  exists u, ([123] ++ map (fun c => if (97 <=? c) && (c <=? 122) then c - 32 else c) (uuid_string u) ++ [125]).
  split; [split; [reflexivity|repeat constructor]|]. split; [|split; [vm_compute; discriminate|vm_compute; reflexivity]].
  apply w_braces; [lia|lia|]. generalize (uuid_string u). intros l. induction l as [|c l IH]; [constructor|]. cbn [map]. constructor; [|exact IH]. unfold same_char, is_letter. destruct ((97 <=? c) && (c <=? 122)) eqn:E; lia.
Qed.
Example C70_example : exists s, char_ok s /\ List.length s = 38%nat /\ (exists e, parse s = Err e) /\ ~ exists u, form u s.
Proof.
  exists ([123] ++ firstn 35 (uuid_string (repeat 7 16)) ++ [10; 125]). set (s := _ ++ _).
  assert (X : char_ok s) by (vm_compute; repeat constructor). assert (E : parse s = Err "invalid UUID format") by (vm_compute; reflexivity).
  split; [exact X|]. split; [reflexivity|]. split; [eexists; exact E|]. intros [u H]. apply (proj1 (C70_accepted_forms s X)) in H. rewrite E in H. discriminate H.
Qed.
Print Assumptions C69_round_trip.
Print Assumptions C69_text_form.
Print Assumptions C69_binary.
Print Assumptions C70_accepted_forms.
Print Assumptions C70_braces_unchecked_refuted.

(** ** C71: random UUIDs *)
(** [r] is a version 4 UUID of the RFC 4122 variant that takes its other 122 bits from [u]. *)
Definition random_from (u r : bytes) : Prop :=
  List.length u = 16%nat /\ List.length r = 16%nat /\
  nth 6 r 0 / 16 = 4 /\ nth 6 r 0 mod 16 = nth 6 u 0 mod 16 /\
  nth 8 r 0 / 64 = 2 /\ nth 8 r 0 mod 64 = nth 8 u 0 mod 64 /\
  forall i, i <> 6%nat -> i <> 8%nat -> nth i r 0 = nth i u 0.
(** Offsets of sixteen-byte blocks that do not overlap. *)
Inductive apart : nat -> list nat -> Prop :=
| apart_nil lo : apart lo []
| apart_cons lo o l : (lo <= o)%nat -> apart (o + 16) l -> apart lo (o :: l).
Definition generated (l : list (res bytes)) : list bytes := flat_map (fun r => match r with Ok u => [u] | _ => [] end) l.
Definition block (src : bytes) (o : nat) : bytes := firstn 16 (skipn o src).
Lemma stamp6 : forall x, x < 256 -> N.lor (N.land x 15) 64 / 16 = 4 /\ N.lor (N.land x 15) 64 mod 16 = x mod 16.
Proof.
  assert (H : forallb (fun x => (N.lor (N.land x 15) 64 / 16 =? 4) && (N.lor (N.land x 15) 64 mod 16 =? x mod 16)) bytes256 = true) by (vm_compute; reflexivity).
  intros x Hx. rewrite forallb_forall in H. specialize (H x (bytes256_in x Hx)). apply andb_true_iff in H. destruct H as [H1 H2]. apply N.eqb_eq in H1, H2. auto.
Qed.
Lemma stamp8 : forall x, x < 256 -> N.lor (N.land x 63) 128 / 64 = 2 /\ N.lor (N.land x 63) 128 mod 64 = x mod 64.
Proof.
  assert (H : forallb (fun x => (N.lor (N.land x 63) 128 / 64 =? 2) && (N.lor (N.land x 63) 128 mod 64 =? x mod 64)) bytes256 = true) by (vm_compute; reflexivity).
  intros x Hx. rewrite forallb_forall in H. specialize (H x (bytes256_in x Hx)). apply andb_true_iff in H. destruct H as [H1 H2]. apply N.eqb_eq in H1, H2. auto.
Qed.
Lemma stamp_random : forall u, List.length u = 16%nat -> char_ok u -> random_from u (stamp u).
Proof.
  intros u L B. do 17 (destruct u as [|?x u]; [try discriminate L|]); [|discriminate L].
  unfold char_ok in B. rewrite Forall_forall in B. assert (B6 : x5 < 256) by (apply B; cbn; tauto). assert (B8 : x7 < 256) by (apply B; cbn; tauto). destruct (stamp6 x5 B6) as [P1 P2]. destruct (stamp8 x7 B8) as [P3 P4].
  unfold stamp. cbn [nth write_at firstn skipn app List.length Nat.add]. unfold random_from. cbn [nth List.length]. repeat (split; [reflexivity || assumption|]).
  intros i N6 N8. do 16 (destruct i as [|i]; [first [reflexivity | congruence]|]). reflexivity.
Qed.
Lemma slice_block : forall src o, slice o (o + 16) src = block src o.
Proof. intros. unfold slice, block. f_equal. lia. Qed.
Lemma block_ok : forall src o, char_ok src -> (o + 16 <= List.length src)%nat -> char_ok (block src o) /\ List.length (block src o) = 16%nat.
Proof.
  intros src o B H. unfold block. split; [|rewrite firstn_length, skipn_length; lia]. unfold char_ok in *. rewrite Forall_forall in *. intros x Hx. apply B. rewrite <- (firstn_skipn o src). apply in_app_iff. right. rewrite <- (firstn_skipn 16 (skipn o src)). apply in_app_iff. now left.
Qed.
Lemma skipn_add : forall (l : bytes) a b, skipn a (skipn b l) = skipn (b + a) l.
Proof. intros l a b. revert l. induction b as [|b IH]; intros l; [reflexivity|]. destruct l; [now rewrite !skipn_nil|]. cbn [skipn Nat.add]. apply IH. Qed.
Definition pool_inv (src : bytes) (p : pool) (lo : nat) : Prop :=
  exists c, p_src p = skipn c src /\ (c <= List.length src)%nat /\
    (p_pos p = 256%nat /\ (lo <= c)%nat \/
     p_enabled p = true /\ exists b k, p_pos p = (16 * k)%nat /\ (k < 16)%nat /\ p_bytes p = firstn 256 (skipn b src) /\ (b + 256 <= c)%nat /\ (lo <= b + p_pos p)%nat).
Lemma slice_firstn : forall (l : bytes) k n, (k + 16 <= n)%nat -> slice k (k + 16) (firstn n l) = firstn 16 (skipn k l).
Proof. intros l k n H. unfold slice. rewrite skipn_firstn_comm, firstn_firstn. f_equal. lia. Qed.
Lemma pool_step_inv : forall src p lo c, char_ok src -> pool_inv src p lo ->
  exists lo', pool_inv src (snd (pool_step c p)) lo' /\ (lo <= lo')%nat /\
    (generated (fst (pool_step c p)) = [] \/
     exists o, (lo <= o)%nat /\ lo' = (o + 16)%nat /\ (o + 16 <= List.length src)%nat /\ fst (pool_step c p) = [Ok (stamp (block src o))]).
Proof.
  intros src p lo c B (k & Ps & Hk & I). destruct c; cbn [pool_step].
  - destruct (p_enabled p) eqn:Ee.
    + unfold new_from_pool. destruct (Nat.eqb_spec (p_pos p) 256) as [E|E].
      * assert (Hlo : (lo <= k)%nat) by (destruct I as [[_ I]|(_ & b & j & Hp & Hj & _)]; [exact I|lia]). unfold read_random. destruct (Nat.leb_spec 256 (List.length (p_src p))) as [H|H].
        -- cbn [fst snd p_pos p_bytes p_src p_enabled]. rewrite Ps in *. rewrite skipn_length in H. exists (k + 16)%nat. split; [|split; [lia|]].
           ++ exists (k + 256)%nat. cbn [p_pos p_bytes p_src p_enabled]. split; [now rewrite skipn_add|]. split; [lia|]. right. split; [exact Ee|]. exists k, 1%nat. repeat split; lia || reflexivity.
           ++ right. exists k. split; [exact Hlo|]. split; [reflexivity|]. split; [lia|]. change (0 + 16)%nat with (0 + 16)%nat. rewrite slice_firstn by lia. reflexivity.
        -- cbn [fst snd]. exists lo. split; [|split; [lia|now left]]. exists (List.length src). cbn [p_pos p_bytes p_src p_enabled]. rewrite skipn_all. split; [reflexivity|]. split; [lia|]. left. split; [exact E|lia].
      * destruct I as [[I _]|(_ & b & j & Hp & Hj & Hb & Hbk & Hl)]; [lia|]. cbn [fst snd]. exists (b + p_pos p + 16)%nat. split; [|split; [lia|]].
        -- exists k. cbn [p_pos p_bytes p_src p_enabled]. split; [exact Ps|]. split; [exact Hk|]. destruct (Nat.eq_dec j 15) as [->|Hj'].
           ++ left. split; [rewrite Hp; reflexivity|lia].
           ++ right. split; [exact Ee|]. exists b, (S j). repeat split; try lia. exact Hb.
        -- right. exists (b + p_pos p)%nat. split; [exact Hl|]. split; [reflexivity|]. split; [lia|]. rewrite Hb, slice_firstn by lia. now rewrite skipn_add.
    + assert (Hlo : (lo <= k)%nat) by (destruct I as [[_ I]|(I & _)]; [exact I|congruence]). assert (E : p_pos p = 256%nat) by (destruct I as [[I _]|(I & _)]; [exact I|congruence]).
      unfold new_from_reader, read_random. destruct (Nat.leb_spec 16 (List.length (p_src p))) as [H|H].
      * cbn [fst snd]. rewrite Ps in *. rewrite skipn_length in H. exists (k + 16)%nat. split; [|split; [lia|]].
        -- exists (k + 16)%nat. cbn [p_pos p_bytes p_src p_enabled]. split; [now rewrite skipn_add|]. split; [lia|]. left. split; [exact E|lia].
        -- right. exists k. split; [exact Hlo|]. split; [reflexivity|]. split; [lia|]. reflexivity.
      * cbn [fst snd]. exists lo. split; [|split; [lia|now left]]. exists (List.length src). cbn [p_pos p_bytes p_src p_enabled]. rewrite skipn_all. split; [reflexivity|]. split; [lia|]. left. split; [exact E|lia].
  - exists lo. split; [|split; [lia|now left]]. exists k. cbn [p_pos p_bytes p_src p_enabled snd]. split; [exact Ps|]. split; [exact Hk|]. destruct I as [I|(_ & I)]; [now left|right; split; [reflexivity|exact I]].
  - exists lo. split; [|split; [lia|now left]]. exists k. cbn [p_pos p_bytes p_src p_enabled snd]. split; [exact Ps|]. split; [exact Hk|]. left. split; [reflexivity|]. destruct I as [[_ I]|(_ & b & j & Hp & Hj & _ & Hbk & Hl)]; lia.
Qed.
Lemma apart_weaken : forall l lo lo', apart lo l -> (lo' <= lo)%nat -> apart lo' l.
Proof. intros l lo lo' H Hl. destruct H; constructor; [lia|auto]. Qed.
Lemma pool_run_apart : forall src, char_ok src -> forall calls p lo, pool_inv src p lo ->
  exists offs, apart lo offs /\ Forall2 (fun o r => (o + 16 <= List.length src)%nat /\ random_from (block src o) r) offs (generated (pool_run calls p)).
Proof.
  intros src B. induction calls as [|c calls IH]; intros p lo I; cbn [pool_run]; [exists []; split; constructor|].
  destruct (pool_step_inv src p lo c B I) as (lo' & I' & Hlo & H). destruct (pool_step c p) as [r p'] eqn:Ep. cbn [fst snd] in *. destruct (IH p' lo' I') as (offs & A & F).
  unfold generated. rewrite flat_map_app. fold (generated r). fold (generated (pool_run calls p')). destruct H as [->|(o & Ho & -> & Hb & ->)].
  - exists offs. split; [eapply apart_weaken; eauto|exact F].
  - exists (o :: offs). split; [constructor; assumption|]. cbn [generated flat_map app]. constructor; [|exact F]. split; [exact Hb|]. destruct (block_ok src o B Hb) as [B1 B2]. now apply stamp_random.
Qed.
(** Whatever the order of calls, every UUID generated is made of its own block
    of the random bytes. *)
Theorem C71_random_uuids : forall src calls, char_ok src ->
  exists offs, apart 0 offs /\
    Forall2 (fun o r => (o + 16 <= List.length src)%nat /\ random_from (block src o) r) offs (generated (pool_run calls (pool_init src))).
Proof.
  intros src calls B. apply pool_run_apart; [exact B|]. exists 0%nat. split; [reflexivity|]. split; [lia|]. left. split; [reflexivity|lia].
Qed.
(** The methods report version 4 and the RFC 4122 variant. *)
Theorem C71_version_variant : forall u r, random_from u r -> version r = 4 /\ variant r = 1.
Proof.
  intros u r (_ & _ & H6 & _ & H8 & _). unfold version, variant. rewrite N.shiftr_div_pow2. split; [exact H6|].
  assert (X : forallb (fun x => negb (x / 64 =? 2) || (N.land x 192 =? 128)) bytes256 = true) by (vm_compute; reflexivity). rewrite forallb_forall in X.
  assert (Hx : nth 8 r 0 < 256) by lia. specialize (X _ (bytes256_in _ Hx)). rewrite H8 in X. cbn [N.eqb Pos.eqb negb orb] in X. now rewrite X.
Qed.
(** While random bytes last, every call generates a UUID, and no call panics. *)
Definition news (l : list pool_call) : nat := List.length (filter (fun c => match c with PNew => true | _ => false end) l).
Theorem C71_generation_succeeds : forall src calls, (256 * news calls <= List.length src)%nat ->
  List.length (generated (pool_run calls (pool_init src))) = news calls /\ List.length (pool_run calls (pool_init src)) = news calls.
Proof.
  assert (G : forall calls p, (256 * news calls <= List.length (p_src p))%nat -> List.length (generated (pool_run calls p)) = news calls /\ List.length (pool_run calls p) = news calls).
  { induction calls as [|c calls IH]; intros p H; [split; reflexivity|]. cbn [pool_run].
    assert (X : exists r p', pool_step c p = (r, p') /\ (256 * news calls <= List.length (p_src p'))%nat /\ List.length (generated r) = (news [c])%nat /\ List.length r = news [c]).
    { destruct c; cbn [pool_step]; unfold news in *; cbn [filter List.length] in *.
      - destruct (p_enabled p).
        + unfold new_from_pool. destruct (Nat.eqb (p_pos p) 256).
          * unfold read_random. destruct (Nat.leb_spec 256 (List.length (p_src p))); [|lia]. do 2 eexists. split; [reflexivity|]. cbn [p_src]. rewrite skipn_length. split; [lia|split; reflexivity].
          * do 2 eexists. split; [reflexivity|]. cbn [p_src]. split; [lia|split; reflexivity].
        + unfold new_from_reader, read_random. destruct (Nat.leb_spec 16 (List.length (p_src p))); [|lia]. do 2 eexists. split; [reflexivity|]. cbn [p_src]. rewrite skipn_length. split; [lia|split; reflexivity].
      - do 2 eexists. split; [reflexivity|]. cbn [p_src]. split; [lia|split; reflexivity].
      - do 2 eexists. split; [reflexivity|]. cbn [p_src]. split; [lia|split; reflexivity]. }
    destruct X as (r & p' & -> & Hl & G1 & G2). destruct (IH p' Hl) as [I1 I2]. unfold generated. rewrite flat_map_app, !app_length. fold (generated r). fold (generated (pool_run calls p')). rewrite G1, G2, I1, I2.
    unfold news. cbn [filter]. destruct c; cbn [List.length]; lia. }
  intros src calls H. now apply G.
Qed.
Example C71_example : exists src calls a b c, char_ok src /\ generated (pool_run calls (pool_init src)) = [a; b; c] /\ a <> b /\ b <> c /\ (256 * news calls <= List.length src)%nat /\ version a = 4.
Proof.
  exists (bytes256 ++ bytes256 ++ bytes256), [PNew; PEnable; PNew; PNew]. do 3 eexists. split; [unfold char_ok; rewrite !Forall_app; assert (Forall (fun c => c < 256) bytes256) by (apply Forall_forall; intros x; vm_compute; intuition (subst; reflexivity)); auto|].
  split; [vm_compute; reflexivity|]. split; [discriminate|]. split; [discriminate|]. split; [vm_compute; lia|reflexivity].
Qed.
Print Assumptions C71_random_uuids.
Print Assumptions C71_version_variant.
Print Assumptions C71_generation_succeeds.

(** ** C72: the clock sequence *)
(** How often a timestamp is not later than the one before it. *)
Fixpoint stalls_after (last : N) (ts : list N) : N :=
  match ts with [] => 0 | t :: ts' => (if t <=? last then 1 else 0) + stalls_after t ts' end.
Definition stalls (out : list (N * N)) : N := match map fst out with [] => 0 | t :: ts => stalls_after t ts end.
Definition never_set (l : list clock_call) : Prop := forall k, In k l -> match k with TSet _ _ _ => False | _ => True end.
(** The state after some calls. *)
Definition clock_after (l : list clock_call) : clock := fold_left (fun c k => snd (clock_step k c)) l clock_init.

Lemma lor_high : forall x, x < 16384 -> N.lor x 32768 = x + 32768.
Proof.
  intros x H. assert (L : N.land x 32768 = 0).
  { apply N.bits_inj. intros i. rewrite N.land_spec, N.bits_0. change 32768 with (2 ^ 15). rewrite N.pow2_bits_eqb. destruct (N.eqb_spec 15 i) as [<-|]; [|apply andb_false_r]. rewrite andb_true_r.
    destruct (N.eq_dec x 0) as [->|Hx]; [reflexivity|]. apply N.bits_above_log2. apply N.log2_lt_pow2; [lia|]. change (2 ^ 15) with 32768. lia. }
  rewrite <- (N.lxor_lor _ _ L). symmetry. now apply N.add_nocarry_lxor.
Qed.
Lemma mask14 : forall x, N.land x 16383 = x mod 16384.
Proof. intros x. change 16383 with (N.ones 14). rewrite N.land_ones. reflexivity. Qed.
Definition seq_at (v : N) : N := 32768 + v mod 16384.
Lemma set_seq_at : forall seq b1 b2 c, exists v, c_seq (set_seq seq b1 b2 c) = seq_at v.
Proof.
  intros. unfold set_seq. cbn [c_seq]. set (z := if (seq =? -1)%Z then _ else _). exists (Z.to_N (z mod 16384)). unfold seq_at. change 16383%Z with (Z.ones 14). rewrite Z.land_ones by lia. change (2 ^ 14)%Z with 16384%Z. rewrite lor_high by lia. lia.
Qed.
Lemma seq_next : forall v, N.lor (N.land (u16 (seq_at v + 1)) 16383) 32768 = seq_at (v + 1).
Proof. intros v. rewrite mask14. unfold u16, seq_at. rewrite lor_high by lia. change (2 ^ 16) with 65536. lia. Qed.
Definition seq_ok (c : clock) : Prop := c_seq c = 0 \/ exists v, c_seq c = seq_at v.
Lemma clock_step_ok : forall k c, seq_ok c -> seq_ok (snd (clock_step k c)).
Proof.
  intros k c H. destruct k; cbn [clock_step].
  - unfold get_time. right. assert (X : exists v, c_seq (if c_seq c =? 0 then set_seq (-1) b1 b2 c else c) = seq_at v). { destruct (N.eqb_spec (c_seq c) 0); [apply set_seq_at|destruct H; [congruence|assumption]]. }
    destruct X as [v X]. cbn [snd c_seq]. rewrite X. destruct (_ <=? _); [rewrite seq_next; eexists; reflexivity|eexists; reflexivity].
  - cbn [snd]. destruct (c_seq c =? 0); [right; apply set_seq_at|exact H].
  - right. apply set_seq_at.
Qed.
Lemma clock_after_ok : forall l, seq_ok (clock_after l).
Proof.
  intros l. unfold clock_after. assert (G : forall c, seq_ok c -> seq_ok (fold_left (fun c k => snd (clock_step k c)) l c)). { induction l as [|k l IH]; intros c H; [exact H|]. cbn [fold_left]. apply IH, clock_step_ok, H. }
  apply G. now left.
Qed.
Lemma get_time_at : forall ns b1 b2 c v, c_seq c = seq_at v ->
  get_time ns b1 b2 c = (time_of ns, seq_at (v + if time_of ns <=? c_last c then 1 else 0), {| c_last := time_of ns; c_seq := seq_at (v + if time_of ns <=? c_last c then 1 else 0) |}).
Proof.
  intros ns b1 b2 c v H. unfold get_time. rewrite H. destruct (N.eqb_spec (seq_at v) 0) as [E|_]; [unfold seq_at in E; lia|]. rewrite H. destruct (time_of ns <=? c_last c); [now rewrite seq_next|now rewrite N.add_0_r].
Qed.
Lemma seq_call_at : forall b1 b2 c v, c_seq c = seq_at v -> snd (clock_step (TSeq b1 b2) c) = c.
Proof. intros b1 b2 c v H. cbn. rewrite H. destruct (N.eqb_spec (seq_at v) 0) as [E|_]; [unfold seq_at in E; lia|reflexivity]. Qed.
Lemma not_repeated : forall l c v k t, never_set l -> c_seq c = seq_at (v + k) -> (k = 0 -> t <= c_last c) -> k + stalls_after (c_last c) (map fst (clock_run l c)) < 16384 -> ~ In (t, seq_at v) (clock_run l c).
Proof.
  induction l as [|call l IH]; intros c v k t Hn Hs Hk Hst Hin; [destruct Hin|]. assert (Hn' : never_set l) by (intros x Hx; apply Hn; now right). specialize (Hn call (or_introl eq_refl)). cbn [clock_run] in *.
  destruct call as [ns b1 b2|b1 b2|]; [| |destruct Hn].
  - cbn [clock_step] in *. rewrite (get_time_at ns b1 b2 c _ Hs) in *. cbn [app In map fst stalls_after] in *. set (d := if time_of ns <=? c_last c then 1 else 0) in *. destruct Hin as [E|Hin].
    + injection E as Et Es. unfold seq_at in Es. assert (Hkd : k + d < 16384) by lia. assert (k + d = 0) by lia. unfold d in H. destruct (N.leb_spec (time_of ns) (c_last c)); [lia|]. specialize (Hk ltac:(lia)). lia.
    + revert Hin. apply (IH _ v (k + d) t); [exact Hn'|cbn [c_seq]; f_equal; lia| |cbn [c_last]; lia]. intros H. cbn [c_last]. unfold d in H. destruct (N.leb_spec (time_of ns) (c_last c)); [lia|]. specialize (Hk ltac:(lia)). lia.
  - pose proof (seq_call_at b1 b2 c _ Hs) as X. destruct (clock_step (TSeq b1 b2) c) as [o c'] eqn:Ec. cbn [snd] in X. subst c'. assert (o = []) by (cbn in Ec; congruence). subst o. cbn [app] in *. now apply (IH c v k t) in Hin.
Qed.
Lemma stalls_tail : forall a l, stalls l <= stalls (a :: l).
Proof. intros a [|b l]; unfold stalls; cbn [map stalls_after]; lia. Qed.
(** Timestamps and clock sequences are distinct while the clock stalls less than 2^14 times. *)
Theorem C72_pairs_distinct : forall before l, never_set l -> stalls (clock_run l (clock_after before)) < 2 ^ 14 -> NoDup (clock_run l (clock_after before)).
Proof.
  intros before l Hn Hs. pose proof (clock_after_ok before) as Hc. revert Hn Hs Hc. generalize (clock_after before). change (2 ^ 14) with 16384. induction l as [|call l IH]; intros c Hn Hs Hc; [constructor|].
  assert (Hn' : never_set l) by (intros x Hx; apply Hn; now right). pose proof (clock_step_ok call c Hc) as Hc'. cbn [clock_run] in *. destruct (clock_step call c) as [o c'] eqn:Ec. cbn [snd] in Hc'. specialize (Hn call (or_introl eq_refl)).
  destruct call as [ns b1 b2|b1 b2|]; [| |destruct Hn].
  - cbn [clock_step] in Ec. set (c0 := if c_seq c =? 0 then set_seq (-1) b1 b2 c else c). assert (X : exists v, c_seq c0 = seq_at v). { unfold c0. destruct (N.eqb_spec (c_seq c) 0); [apply set_seq_at|destruct Hc; [congruence|assumption]]. }
    destruct X as [v X]. assert (E : get_time ns b1 b2 c = get_time ns b1 b2 c0). { unfold get_time. fold c0. destruct (N.eqb_spec (c_seq c0) 0) as [E|_]; [rewrite X in E; unfold seq_at in E; lia|reflexivity]. }
    rewrite E, (get_time_at ns b1 b2 c0 v X) in Ec. injection Ec as <- <-. set (w := v + _) in *. cbn [app] in *. constructor.
    + apply (not_repeated l _ w 0); [exact Hn'|cbn [c_seq]; now rewrite N.add_0_r|cbn [c_last]; lia|]. cbn [c_last]. unfold stalls in Hs. cbn [map fst] in Hs. lia.
    + apply IH; [exact Hn'| |exact Hc']. eapply N.le_lt_trans; [apply stalls_tail|exact Hs].
  - cbn in Ec. injection Ec as <- <-. cbn [app] in *. now apply IH.
Qed.
(** The timestamps count 100 nanosecond intervals since 15 October 1582, which
    was 141427 days before 1970; the clock's nanoseconds are an int64. *)
Definition readings (l : list clock_call) : list Z := flat_map (fun k => match k with TGet ns _ _ => [ns] | _ => [] end) l.
Theorem C72_timestamps : forall before l, (forall ns, In ns (readings l) -> 0 <= ns < 2 ^ 63)%Z ->
  map (fun p => Z.of_N (fst p)) (clock_run l (clock_after before)) = map (fun ns => ns / 100 + 141427 * 24 * 3600 * 10000000)%Z (readings l).
Proof.
  intros before l. generalize (clock_after before). induction l as [|k l IH]; intros c H; [reflexivity|]. cbn [clock_run readings flat_map]. fold (readings l). destruct (clock_step k c) as [o c'] eqn:Ec.
  rewrite !map_app, IH by (intros ns Hns; apply H; cbn [readings flat_map]; fold (readings l); apply in_app_iff; now right). f_equal. destruct k as [ns b1 b2|b1 b2|]; cbn in Ec; injection Ec as <- _; [|reflexivity..].
  cbn [map fst]. f_equal. assert (Hns : (0 <= ns < 2 ^ 63)%Z) by (apply H; now left). change (2 ^ 63)%Z with 9223372036854775808%Z in Hns. unfold time_of, g1582ns100. rewrite Z.quot_div_nonneg by lia. lia.
Qed.
(** The bound is exact, and setting the sequence by hand can repeat a pair. *)
Theorem C72_too_many_stalls_refuted : exists l, never_set l /\ stalls (clock_run l clock_init) = 2 ^ 14 /\ ~ NoDup (clock_run l clock_init).
Proof.
  exists (repeat (TGet 0 0 0) (N.to_nat 16385)). split; [intros k Hk; apply repeat_spec in Hk; now subst k|]. split; [vm_compute; reflexivity|].
  intros H. rewrite NoDup_nth_error in H. specialize (H 0%nat (N.to_nat 16384)). assert (E : 0%nat = N.to_nat 16384); [|lia]. apply H; [apply Nat.ltb_lt; vm_compute; reflexivity|vm_compute; reflexivity].
Qed.
Theorem C72_set_sequence_refuted : exists l, stalls (clock_run l clock_init) < 2 ^ 14 /\ ~ NoDup (clock_run l clock_init).
Proof.
  exists [TSet 5 0 0; TGet 0 0 0; TSet 6 0 0; TSet 5 0 0; TGet 0 0 0]. split; [vm_compute; reflexivity|]. intros H. vm_compute in H. inversion H as [|? ? X _]. apply X. now left.
Qed.
Example C72_example : exists before l, never_set l /\ 1 < stalls (clock_run l (clock_after before)) < 2 ^ 14 /\ List.length (clock_run l (clock_after before)) = 5%nat /\ (forall ns, In ns (readings l) -> 0 <= ns < 2 ^ 63)%Z.
Proof.
  exists [TSet (-7) 0 0], [TGet 1000 3 4; TGet 1000 3 4; TSeq 1 1; TGet 500 3 4; TGet 700 3 4; TGet 600 3 4]. split; [intros k Hk; cbn in Hk; intuition (subst; exact I)|]. split; [vm_compute; split; reflexivity|]. split; [reflexivity|].
  intros ns Hns. cbn in Hns. change (2 ^ 63)%Z with 9223372036854775808%Z. lia.
Qed.
Print Assumptions C72_pairs_distinct.
Print Assumptions C72_timestamps.
Print Assumptions C72_too_many_stalls_refuted.
Print Assumptions C72_set_sequence_refuted.

(** ** C80: times in UUIDs *)
Lemma lor_shift : forall a b n, a < 2 ^ n -> N.lor a (N.shiftl b n) = a + b * 2 ^ n.
Proof.
  intros a b n H. assert (L : N.land a (N.shiftl b n) = 0).
  { apply N.bits_inj. intros i. rewrite N.land_spec, N.bits_0. destruct (N.lt_ge_cases i n) as [Hi|Hi]; [rewrite N.shiftl_spec_low by exact Hi; apply andb_false_r|].
    destruct (N.eq_dec a 0) as [->|Ha]; [now rewrite N.bits_0|]. rewrite N.bits_above_log2; [reflexivity|]. eapply N.lt_le_trans; [exact (proj1 (N.log2_lt_pow2 a n (proj1 (N.neq_0_lt_0 a) Ha)) H)|exact Hi]. }
  rewrite <- (N.lxor_lor _ _ L), <- N.add_nocarry_lxor by exact L. now rewrite N.shiftl_mul_pow2.
Qed.
(** The layout of RFC 4122, 4.1.2: the time in three parts, low part first, the
    version before the last, the variant before the clock sequence. *)
Definition rfc_uuid (time version variant clock : N) (node : bytes) : bytes :=
  be 4 (time mod 2 ^ 32) ++ be 2 (time / 2 ^ 32 mod 2 ^ 16) ++ be 2 (version * 2 ^ 12 + time / 2 ^ 48) ++ be 2 (variant * 2 ^ 14 + clock) ++ node.
Theorem C80_time_fields : forall time version variant clock node, time < 2 ^ 60 -> version < 16 -> variant < 4 -> clock < 2 ^ 14 ->
  uuid_time (rfc_uuid time version variant clock node) = time /\ uuid_clock_seq (rfc_uuid time version variant clock node) = clock.
Proof.
  intros t v w c node Ht Hv Hw Hc. change (2 ^ 60) with 1152921504606846976 in Ht. change (2 ^ 14) with 16384 in *. unfold uuid_time, uuid_clock_seq, rfc_uuid. change (2 ^ 32) with 4294967296. change (2 ^ 16) with 65536. change (2 ^ 12) with 4096. change (2 ^ 48) with 281474976710656. change (2 ^ 14) with 16384.
  assert (F : forall x p r : bytes, forall m n, List.length p = m -> (m + List.length x)%nat = n -> slice m n (p ++ x ++ r) = x).
  { intros x p r m n <- <-. unfold slice. rewrite skipn_app, Nat.sub_diag, skipn_all, app_nil_l. cbn [skipn]. replace (List.length p + List.length x - List.length p)%nat with (List.length x) by lia. rewrite firstn_app, Nat.sub_diag, firstn_all. cbn [firstn]. apply app_nil_r. }
  set (a := be 4 _). set (b := be 2 (t / _ mod _)). set (d := be 2 (v * _ + _)). set (e := be 2 (w * _ + c)).
  assert (La : List.length a = 4%nat) by reflexivity. assert (Lb : List.length b = 2%nat) by reflexivity. assert (Ld : List.length d = 2%nat) by reflexivity. assert (Le : List.length e = 2%nat) by reflexivity.
  assert (F1 : slice 0 4 (a ++ b ++ d ++ e ++ node) = a) by (apply (F a [] (b ++ d ++ e ++ node)); reflexivity).
  assert (F2 : slice 4 6 (a ++ b ++ d ++ e ++ node) = b) by (apply (F b a (d ++ e ++ node)); reflexivity).
  assert (F3 : slice 6 8 (a ++ b ++ d ++ e ++ node) = d) by (replace (a ++ b ++ d ++ e ++ node) with ((a ++ b) ++ d ++ e ++ node) by (now rewrite <- app_assoc); apply F; reflexivity).
  assert (F4 : slice 8 10 (a ++ b ++ d ++ e ++ node) = e) by (replace (a ++ b ++ d ++ e ++ node) with ((a ++ b ++ d) ++ e ++ node) by (now rewrite <- !app_assoc); apply F; reflexivity).
  rewrite F1, F2, F3, F4.
  unfold a, b, d, e. rewrite !unbe_be_small by (cbn; lia). rewrite mask14. change 4095 with (N.ones 12). rewrite N.land_ones. change (2 ^ 12) with 4096. split; [|lia].
  rewrite (lor_shift (t mod 4294967296)) by (change (2 ^ 32) with 4294967296; lia). change (2 ^ 32) with 4294967296. rewrite lor_shift by (change (2 ^ 48) with 281474976710656; lia). change (2 ^ 48) with 281474976710656. lia.
Qed.
(** A timestamp turned back into Unix time loses less than 100 nanoseconds.
    Before 1970 both parts are zero or negative. *)
Theorem C80_unix_time : forall ns before l b1 b2 t s, (- 2 ^ 63 <= ns < 2 ^ 63)%Z -> clock_run (l ++ [TGet ns b1 b2]) (clock_after before) = clock_run l (clock_after before) ++ [(t, s)] ->
  exists sec nsec, unix_time (Z.of_N t) = (sec, nsec) /\ (Z.abs (sec * 1000000000 + nsec - ns) < 100)%Z /\ (Z.abs nsec < 1000000000)%Z /\ (0 <= ns -> 0 <= sec /\ 0 <= nsec <= ns)%Z /\ (ns <= 0 -> sec <= 0 /\ ns <= nsec <= 0)%Z.
Proof.
  intros ns before l b1 b2 t s Hns H. assert (Et : t = time_of ns).
  { revert H. generalize (clock_after before). induction l as [|k l IH]; intros c H.
    - cbn [app clock_run clock_step] in H. destruct (get_time ns b1 b2 c) as [[t' s'] c'] eqn:Eg. cbn in H. injection H as <- _. unfold get_time in Eg. injection Eg as <- _ _. reflexivity.
    - cbn [app clock_run] in H. destruct (clock_step k c) as [o c']. rewrite <- app_assoc in H. apply app_inv_head in H. now apply (IH c'). }
  subst t. clear H. change (- 2 ^ 63)%Z with (-9223372036854775808)%Z in Hns. change (2 ^ 63)%Z with 9223372036854775808%Z in Hns. do 2 eexists. split; [reflexivity|]. unfold time_of, g1582ns100.
  pose proof (Z.quot_rem' ns 100) as Q. assert (R : (0 <= ns -> 0 <= Z.rem ns 100 < 100)%Z) by (intros; apply Z.rem_bound_pos; lia). assert (R' : (ns <= 0 -> -100 < Z.rem ns 100 <= 0)%Z) by (intros X; exact (Zquot.Zrem_lt_neg_pos ns 100 X eq_refl)).
  set (q := Z.quot ns 100) in *. set (r := Z.rem ns 100) in *. rewrite Z2N.id by lia. rewrite Z.mod_small by lia. set (g := ((2440587 - 2299160) * 86400 * 10000000)%Z). replace (q + g - g)%Z with q by lia.
  pose proof (Z.quot_rem' q 10000000) as Q2. assert (R2 : (0 <= q -> 0 <= Z.rem q 10000000 < 10000000)%Z) by (intros; apply Z.rem_bound_pos; lia). assert (R2' : (q <= 0 -> -10000000 < Z.rem q 10000000 <= 0)%Z) by (intros X; exact (Zquot.Zrem_lt_neg_pos q 10000000 X eq_refl)).
  set (q2 := Z.quot q 10000000) in *. set (r2 := Z.rem q 10000000) in *. clearbody q r q2 r2. clear g. lia.
Qed.
Example C80_example : exists ns l, (- 2 ^ 63 <= ns < 2 ^ 63)%Z /\ exists t s, clock_run (l ++ [TGet ns 0 0]) (clock_after []) = clock_run l (clock_after []) ++ [(t, s)] /\ unix_time (Z.of_N t) = (-1, -500000000)%Z /\
  uuid_time (rfc_uuid t 1 2 (s mod 2 ^ 14) (repeat 9 6)) = t.
Proof.
  exists (-1500000050)%Z, [TGet 3 1 1]. split; [split; [discriminate|reflexivity]|]. do 2 eexists. split; [vm_compute; reflexivity|]. split; vm_compute; reflexivity.
Qed.
Print Assumptions C80_time_fields.
Print Assumptions C80_unix_time.
