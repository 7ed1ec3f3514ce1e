(** Facts about the base vocabulary. *)
From Verif Require Export Base.
Local Ltac Zify.zify_post_hook ::= Z.div_mod_to_equations.

Lemma len_nil : forall A, len (@nil A) = 0. Proof. reflexivity. Qed.
Lemma len_cons : forall A (x : A) l, len (x :: l) = 1 + len l.
Proof. intros. unfold len. cbn [List.length]. lia. Qed.
Lemma len_app : forall A (l m : list A), len (l ++ m) = len l + len m.
Proof. intros. unfold len. rewrite app_length. lia. Qed.
Lemma len_0_nil : forall A (l : list A), len l = 0 -> l = [].
Proof. intros A [|x l] H; auto. rewrite len_cons in H. lia. Qed.
Lemma len_length : forall A (l : list A), N.to_nat (len l) = List.length l.
Proof. intros. unfold len. lia. Qed.
Lemma len_map : forall A B (f : A -> B) l, len (map f l) = len l.
Proof. intros. unfold len. now rewrite map_length. Qed.
Lemma len_rev : forall A (l : list A), len (rev l) = len l.
Proof. intros. unfold len. now rewrite rev_length. Qed.
Lemma len_repeat : forall A (x : A) n, len (repeat x n) = N.of_nat n.
Proof. intros. unfold len. now rewrite repeat_length. Qed.

Lemma takeN_firstn : forall A (l : list A) n, takeN n l = firstn (N.to_nat n) l.
Proof.
  induction l as [|x l IH]; intros n; cbn [takeN].
  - now rewrite firstn_nil.
  - destruct (N.eqb_spec n 0) as [->|H]; [reflexivity|].
    replace (N.to_nat n) with (S (N.to_nat (n - 1))) by lia.
    cbn [firstn]. now rewrite IH.
Qed.
Lemma dropN_skipn : forall A (l : list A) n, dropN n l = skipn (N.to_nat n) l.
Proof.
  induction l as [|x l IH]; intros n; cbn [dropN].
  - now rewrite skipn_nil.
  - destruct (N.eqb_spec n 0) as [->|H]; [reflexivity|].
    replace (N.to_nat n) with (S (N.to_nat (n - 1))) by lia.
    cbn [skipn]. now rewrite IH.
Qed.
Lemma take_drop : forall A n (l : list A), takeN n l ++ dropN n l = l.
Proof. intros. rewrite takeN_firstn, dropN_skipn. apply firstn_skipn. Qed.
Lemma len_takeN : forall A n (l : list A), len (takeN n l) = N.min n (len l).
Proof. intros. rewrite takeN_firstn. unfold len. rewrite firstn_length. lia. Qed.
Lemma len_dropN : forall A n (l : list A), len (dropN n l) = len l - n.
Proof. intros. rewrite dropN_skipn. unfold len. rewrite skipn_length. lia. Qed.
Lemma takeN_0 : forall A (l : list A), takeN 0 l = [].
Proof. intros A [|x l]; reflexivity. Qed.
Lemma dropN_0 : forall A (l : list A), dropN 0 l = l.
Proof. intros A [|x l]; reflexivity. Qed.
Lemma takeN_all : forall A n (l : list A), len l <= n -> takeN n l = l.
Proof. intros. rewrite takeN_firstn. apply firstn_all2. unfold len in H. lia. Qed.
Lemma dropN_all : forall A n (l : list A), len l <= n -> dropN n l = [].
Proof. intros. rewrite dropN_skipn. apply skipn_all2. unfold len in H. lia. Qed.
Lemma takeN_app_len : forall A (l m : list A), takeN (len l) (l ++ m) = l.
Proof.
  intros. rewrite takeN_firstn, len_length, firstn_app, Nat.sub_diag, firstn_O, app_nil_r.
  apply firstn_all.
Qed.
Lemma dropN_app_len : forall A (l m : list A), dropN (len l) (l ++ m) = m.
Proof.
  intros. rewrite dropN_skipn, len_length, skipn_app, Nat.sub_diag, skipn_all. reflexivity.
Qed.
Lemma takeN_app_exact : forall A n (l m : list A), len l = n -> takeN n (l ++ m) = l.
Proof. intros; subst; apply takeN_app_len. Qed.
Lemma dropN_app_exact : forall A n (l m : list A), len l = n -> dropN n (l ++ m) = m.
Proof. intros; subst; apply dropN_app_len. Qed.
Lemma dropN_dropN : forall A a b (l : list A), dropN a (dropN b l) = dropN (b + a) l.
Proof.
  intros A a b l. rewrite !dropN_skipn. rewrite N2Nat.inj_add.
  generalize (N.to_nat b) as m, (N.to_nat a) as n. intros m n. revert l.
  induction m as [|m IH]; intros l; [reflexivity|].
  destruct l as [|x l]; [now rewrite !skipn_nil|]. cbn [skipn plus]. apply IH.
Qed.
Lemma takeN_app_le : forall A n (l m : list A), n <= len l -> takeN n (l ++ m) = takeN n l.
Proof.
  intros. rewrite !takeN_firstn, firstn_app.
  unfold len in H. replace (N.to_nat n - List.length l)%nat with 0%nat by lia.
  now rewrite firstn_O, app_nil_r.
Qed.
Lemma dropN_app_le : forall A n (l m : list A), n <= len l -> dropN n (l ++ m) = dropN n l ++ m.
Proof.
  intros. rewrite !dropN_skipn, skipn_app.
  unfold len in H. now replace (N.to_nat n - List.length l)%nat with 0%nat by lia.
Qed.
Lemma takeN_app_ge : forall A n (l m : list A), len l <= n ->
  takeN n (l ++ m) = l ++ takeN (n - len l) m.
Proof.
  intros. rewrite !takeN_firstn, firstn_app.
  unfold len in *. rewrite firstn_all2 by lia. f_equal. f_equal. lia.
Qed.
Lemma dropN_app_ge : forall A n (l m : list A), len l <= n ->
  dropN n (l ++ m) = dropN (n - len l) m.
Proof.
  intros. rewrite !dropN_skipn, skipn_app.
  unfold len in *. rewrite skipn_all2 by lia. cbn [app]. f_equal. lia.
Qed.
Lemma Forall_takeN : forall A (P : A -> Prop) n l, Forall P l -> Forall P (takeN n l).
Proof.
  intros A P n l H. rewrite <- (take_drop _ n l) in H. now apply Forall_app in H.
Qed.
Lemma Forall_dropN : forall A (P : A -> Prop) n l, Forall P l -> Forall P (dropN n l).
Proof.
  intros A P n l H. rewrite <- (take_drop _ n l) in H. now apply Forall_app in H.
Qed.

Lemma split_at_ok : forall A n (l m : list A), len l = n -> split_at n (l ++ m) = Ok (l, m).
Proof.
  intros A n l m <-. unfold split_at. rewrite len_app.
  destruct (N.leb_spec (len l) (len l + len m)); [|lia].
  now rewrite takeN_app_len, dropN_app_len.
Qed.
Lemma slice_from_ok : forall A n (l m : list A), len l = n -> slice_from n (l ++ m) = Ok m.
Proof.
  intros A n l m <-. unfold slice_from. rewrite len_app.
  destruct (N.leb_spec (len l) (len l + len m)); [|lia].
  now rewrite dropN_app_len.
Qed.

(** Fixed width arithmetic *)
Lemma u32_small : forall n, n < 4294967296 -> u32 n = n.
Proof. intros. unfold u32. now apply N.mod_small. Qed.
Lemma u16_small : forall n, n < 65536 -> u16 n = n.
Proof. intros. unfold u16. now apply N.mod_small. Qed.
Lemma u8_small : forall n, n < 256 -> u8 n = n.
Proof. intros. unfold u8. now apply N.mod_small. Qed.
Lemma u64_small : forall n, n < 18446744073709551616 -> u64 n = n.
Proof. intros. unfold u64. now apply N.mod_small. Qed.
Lemma u32_lt : forall n, u32 n < 4294967296.
Proof. intros. unfold u32. apply N.mod_lt. lia. Qed.
Lemma u16_lt : forall n, u16 n < 65536.
Proof. intros. unfold u16. apply N.mod_lt. lia. Qed.
Lemma u8_lt : forall n, u8 n < 256.
Proof. intros. unfold u8. apply N.mod_lt. lia. Qed.
Lemma sub32_small : forall a b, b <= a -> a < 4294967296 -> sub32 a b = a - b.
Proof.
  intros. unfold sub32, u32. rewrite (N.mod_small b) by lia. lia.
Qed.

(** Big-endian numbers *)
Lemma be_length : forall k n, List.length (be k n) = k.
Proof. induction k; intros; cbn [be List.length]; auto. Qed.
Lemma len_be : forall k n, len (be k n) = N.of_nat k.
Proof. intros. unfold len. now rewrite be_length. Qed.
Lemma be_ok : forall k n, bytes_ok (be k n).
Proof.
  induction k as [|k IH]; intros; cbn [be]; constructor.
  - unfold is_byte. apply N.mod_lt. lia.
  - apply IH.
Qed.
Lemma unbe_from : forall l a, fold_left (fun a b => a * 256 + b) l a = a * 256 ^ len l + unbe l.
Proof.
  induction l as [|x l IH]; intros a.
  - rewrite len_nil. cbn. lia.
  - unfold unbe. cbn [fold_left]. rewrite (IH (a*256+x)), (IH (0*256+x)).
    rewrite len_cons, N.pow_add_r, N.pow_1_r. lia.
Qed.
Lemma unbe_nil : unbe [] = 0. Proof. reflexivity. Qed.
Lemma unbe_cons : forall x l, unbe (x :: l) = x * 256 ^ len l + unbe l.
Proof.
  intros. unfold unbe at 1. cbn [fold_left]. rewrite unbe_from. lia.
Qed.
Lemma unbe_app : forall l m, unbe (l ++ m) = unbe l * 256 ^ len m + unbe m.
Proof.
  intros. unfold unbe. rewrite fold_left_app, unbe_from. reflexivity.
Qed.
Lemma unbe_be : forall k n, unbe (be k n) = n mod 256 ^ N.of_nat k.
Proof.
  induction k as [|k IH]; intros n.
  - cbn. symmetry. apply N.mod_1_r.
  - cbn [be]. rewrite unbe_cons, IH, len_be.
    rewrite Nat2N.inj_succ, N.pow_succ_r'.
    assert (256 ^ N.of_nat k <> 0) by (apply N.pow_nonzero; lia).
    rewrite (N.mul_comm 256), N.mod_mul_r by lia. lia.
Qed.
Lemma unbe_be_small : forall k n, n < 256 ^ N.of_nat k -> unbe (be k n) = n.
Proof. intros. rewrite unbe_be. now apply N.mod_small. Qed.
Lemma unbe_lt : forall l, bytes_ok l -> unbe l < 256 ^ len l.
Proof.
  induction l as [|x l IH]; intros H.
  - rewrite len_nil. cbn. lia.
  - inversion H as [|? ? Hx Hl]; subst. rewrite unbe_cons, len_cons, N.pow_add_r, N.pow_1_r.
    specialize (IH Hl). unfold is_byte in Hx. nia.
Qed.
Lemma be_mod : forall k n, be k (n mod 256 ^ N.of_nat k) = be k n.
Proof.
  intros k n.
  assert (H : forall k' m, (k' <= k)%nat -> be k' (m mod 256 ^ N.of_nat k) = be k' m).
  { induction k' as [|k' IH]; intros m Hle; [reflexivity|].
    cbn [be]. rewrite IH by lia. f_equal.
    set (p := 256 ^ N.of_nat k').
    assert (Hp : p <> 0) by (apply N.pow_nonzero; lia).
    replace (N.of_nat k) with (N.of_nat k' + (1 + N.of_nat (k - S k'))) by lia.
    rewrite N.pow_add_r. fold p. rewrite N.pow_add_r, N.pow_1_r.
    set (q := 256 ^ N.of_nat (k - S k')).
    assert (Hq : q <> 0) by (apply N.pow_nonzero; lia).
    rewrite N.mod_mul_r by nia.
    rewrite (N.mul_comm p), N.div_add by lia.
    rewrite N.div_small by (apply N.mod_lt; lia). rewrite N.add_0_l.
    rewrite N.mod_mul_r by nia.
    rewrite (N.mul_comm 256), N.mod_add by lia. now rewrite N.mod_mod by lia. }
  now apply H.
Qed.
Lemma be_unbe : forall l, bytes_ok l -> be (List.length l) (unbe l) = l.
Proof.
  induction l as [|x l IH]; intros H; [reflexivity|].
  inversion H as [|? ? Hx Hl]; subst. cbn [List.length be].
  pose proof (unbe_lt l Hl) as Hlt. unfold len in Hlt.
  assert (Hp : 256 ^ N.of_nat (List.length l) <> 0) by (apply N.pow_nonzero; lia).
  f_equal.
  - rewrite unbe_cons. unfold len. rewrite N.add_comm, N.div_add by lia.
    rewrite N.div_small by lia. rewrite N.add_0_l. now apply N.mod_small.
  - rewrite <- (IH Hl) at 3. rewrite <- (be_mod _ (unbe (x :: l))). f_equal.
    rewrite unbe_cons. unfold len. rewrite N.add_comm, N.mod_add by lia.
    now apply N.mod_small.
Qed.
Lemma be_inj : forall k a b, a < 256 ^ N.of_nat k -> b < 256 ^ N.of_nat k ->
  be k a = be k b -> a = b.
Proof.
  intros k a b Ha Hb H. rewrite <- (unbe_be_small k a Ha), <- (unbe_be_small k b Hb). now f_equal.
Qed.
Lemma get_be_app : forall k n l, n < 256 ^ N.of_nat k -> get_be k (be k n ++ l) = Ok (n, l).
Proof.
  intros k n l Hn. unfold get_be. rewrite app_length, be_length.
  destruct (Nat.leb_spec k (k + List.length l)); [|lia].
  rewrite firstn_app, be_length, Nat.sub_diag, firstn_O, app_nil_r.
  rewrite firstn_all2 by (rewrite be_length; lia).
  rewrite skipn_app, be_length, Nat.sub_diag, skipn_all2 by (rewrite be_length; lia).
  cbn [skipn app]. now rewrite unbe_be_small.
Qed.
Lemma get_be_exact : forall k (b l : bytes), List.length b = k -> get_be k (b ++ l) = Ok (unbe b, l).
Proof.
  intros k b l <-. unfold get_be. rewrite app_length.
  destruct (Nat.leb_spec (List.length b) (List.length b + List.length l)); [|lia].
  rewrite firstn_app, Nat.sub_diag, firstn_O, app_nil_r, firstn_all.
  now rewrite skipn_app, Nat.sub_diag, skipn_all.
Qed.
Lemma get_be_short : forall k l, (List.length l < k)%nat -> get_be k l = Panic.
Proof.
  intros. unfold get_be. destruct (Nat.leb_spec k (List.length l)); [lia|reflexivity].
Qed.
Lemma bytes_ok_app : forall a b, bytes_ok (a ++ b) <-> bytes_ok a /\ bytes_ok b.
Proof. intros. apply Forall_app. Qed.

(** Generic list facts *)
Lemma app_inj_len : forall A (a b c d : list A), List.length a = List.length c ->
  a ++ b = c ++ d -> a = c /\ b = d.
Proof.
  induction a as [|x a IH]; intros b [|y c] d Hl H; cbn in *; try discriminate; auto.
  injection Hl as Hl. injection H as -> H. destruct (IH _ _ _ Hl H). now subst.
Qed.
Lemma Forall2_len : forall A B (R : A -> B -> Prop) l m, Forall2 R l m -> List.length l = List.length m.
Proof. induction 1; cbn; auto. Qed.
