(** What the MessagePack writer emits and the reader accepts. *)
From Verif Require Import Base BaseFacts MsgpackModel.
Local Ltac Zify.zify_post_hook ::= Z.div_mod_to_equations.

(** ** Specification vocabulary *)
Definition at_ (pre rest : bytes) : reader := {| dr_buf := pre ++ rest; dr_off := len pre; dr_err := None |}.
(** [w] writes exactly [bs] over the next bytes of the buffer. *)
Definition emits (w : wr) (bs : bytes) : Prop := forall pre mid post,
  len mid = len bs -> len (pre ++ mid ++ post) < 4294967296 ->
  w (at_ pre (mid ++ post)) = Ok (at_ (pre ++ bs) post).
(** Without room for [bs] the buffer keeps its size and the range error is set. *)
Definition overruns (w : wr) (bs : bytes) : Prop := forall pre mid,
  len mid < len bs -> len (pre ++ bs) < 4294967296 ->
  exists r, w (at_ pre mid) = Ok r /\ dr_err r = Some err_range /\ len (dr_buf r) = len (pre ++ mid).
Definition sticky (w : wr) : Prop := forall r e, dr_err r = Some e -> w r = Ok r.
Definition writes (w : wr) (bs : bytes) : Prop := emits w bs /\ overruns w bs /\ sticky w.
(** [d] reads [bs], and nothing else, as [v]. *)
Definition parses {A} (d : rd A) (bs : bytes) (v : A) : Prop := forall pre post,
  len (pre ++ bs ++ post) < 4294967296 ->
  d (at_ pre (bs ++ post)) = (Ok v, at_ (pre ++ bs) post).
Definition rejects {A} (d : rd A) (bs : bytes) (e : string) : Prop := forall pre post,
  len (pre ++ bs ++ post) < 4294967296 ->
  exists r, d (at_ pre (bs ++ post)) = (Err e, r).

(** ** Writer combinators *)
Lemma at_eq : forall pre rest pre' rest', len pre = len pre' -> pre ++ rest = pre' ++ rest' ->
  at_ pre rest = at_ pre' rest'.
Proof. intros. unfold at_. now rewrite H, H0. Qed.
Lemma at_assoc : forall pre a b, at_ pre (a ++ b) = {| dr_buf := (pre ++ a) ++ b; dr_off := len pre; dr_err := None |}.
Proof. intros. unfold at_. now rewrite app_assoc. Qed.

Lemma check_ok : forall n pre rest, n <= len rest -> len (pre ++ rest) < 4294967296 ->
  check n (at_ pre rest) = (Ok tt, at_ pre rest).
Proof.
  intros n pre rest H1 H2. unfold check, at_. cbn [dr_err dr_buf dr_off]. rewrite len_app in *.
  rewrite !u32_small by lia. destruct (N.ltb_spec (len pre + len rest) (len pre + n)); [lia|reflexivity].
Qed.
Lemma check_short : forall n pre rest, len rest < n -> len pre + n < 4294967296 ->
  check n (at_ pre rest) = (Err err_range, {| dr_buf := pre ++ rest; dr_off := len pre; dr_err := Some err_range |}).
Proof.
  intros n pre rest H1 H2. unfold check, at_. cbn [dr_err dr_buf dr_off]. rewrite len_app in *.
  rewrite !u32_small by lia. destruct (N.ltb_spec (len pre + len rest) (len pre + n)); [reflexivity|lia].
Qed.
Lemma check_err : forall n r e, dr_err r = Some e -> check n r = (Err e, r).
Proof. intros n r e H. unfold check. now rewrite H. Qed.

Lemma overwrite_at : forall pre mid post src, len mid = len src ->
  overwrite (len pre) src (pre ++ mid ++ post) = pre ++ src ++ post.
Proof.
  intros pre mid post src H. unfold overwrite.
  rewrite takeN_app_len. f_equal. rewrite !len_app. f_equal.
  - apply takeN_all. lia.
  - rewrite app_assoc. apply dropN_app_exact. rewrite len_app. lia.
Qed.
Lemma set_u_writes : forall k v, writes (set_u k v) (be k v).
Proof.
  intros k v. split; [|split].
  - intros pre mid post H1 H2. rewrite len_be in H1. unfold set_u.
    rewrite !len_app in H2.
    rewrite check_ok by (rewrite ?len_app; lia). unfold at_ at 1 2 3 4 5 6. cbn [dr_off dr_buf dr_err].
    rewrite !len_app. destruct (N.leb_spec (len pre + N.of_nat k) (len pre + (len mid + len post))); [|lia].
    f_equal. unfold at_. rewrite overwrite_at by (rewrite len_be; lia).
    rewrite len_app, len_be, <- app_assoc, u32_small by lia. reflexivity.
  - intros pre mid H1 H2. rewrite len_be in H1. rewrite len_app, len_be in H2. unfold set_u.
    rewrite check_short by lia. eexists. split; [reflexivity|]. split; reflexivity.
  - intros r e H. unfold set_u. now rewrite (check_err _ _ _ H).
Qed.
Lemma set_bytes_writes : forall s, writes (set_bytes s) s.
Proof.
  intros s. split; [|split].
  - intros pre mid post H1 H2. unfold set_bytes. rewrite !len_app in H2.
    rewrite u32_small by lia.
    rewrite check_ok by (rewrite ?len_app; lia). unfold at_ at 1 2 3 4 5 6. cbn [dr_off dr_buf dr_err].
    rewrite !len_app. destruct (N.leb_spec (len pre) (len pre + (len mid + len post))); [|lia].
    f_equal. unfold at_. rewrite overwrite_at by lia.
    rewrite len_app, <- app_assoc, u32_small by lia. reflexivity.
  - intros pre mid H1 H2. rewrite len_app in H2. unfold set_bytes. rewrite u32_small by lia.
    rewrite check_short by lia. eexists. split; [reflexivity|]. split; reflexivity.
  - intros r e H. unfold set_bytes. now rewrite (check_err _ _ _ H).
Qed.
Lemma seqw_writes : forall a b x y, writes a x -> writes b y -> writes (a ;;; b) (x ++ y).
Proof.
  intros a b x y (Ea & Oa & Sa) (Eb & Ob & Sb). split; [|split].
  - intros pre mid post H1 H2. unfold seqw.
    rewrite len_app in H1. rewrite !len_app in H2.
    assert (D : mid = takeN (len x) mid ++ dropN (len x) mid) by now rewrite take_drop.
    assert (L1 : len (takeN (len x) mid) = len x) by (rewrite len_takeN; lia).
    assert (L2 : len (dropN (len x) mid) = len y) by (rewrite len_dropN; lia).
    rewrite D, <- app_assoc. rewrite Ea; [|exact L1|rewrite !len_app, L1, L2; lia].
    cbn [bind]. rewrite Eb; [|exact L2|rewrite !len_app, L2; lia]. now rewrite app_assoc.
  - intros pre mid H1 H2. unfold seqw. rewrite len_app in H1; rewrite !len_app in H2.
    destruct (N.lt_ge_cases (len mid) (len x)) as [L|L].
    + destruct (Oa pre mid L) as (r & E & Er & El); [rewrite len_app; lia|].
      rewrite E. cbn [bind]. exists r. rewrite (Sb _ _ Er). auto.
    + assert (D : mid = takeN (len x) mid ++ dropN (len x) mid) by now rewrite take_drop.
      assert (L1 : len (takeN (len x) mid) = len x) by (rewrite len_takeN; lia).
      replace (at_ pre mid) with (at_ pre (takeN (len x) mid ++ dropN (len x) mid)) by now rewrite take_drop. rewrite Ea; [|exact L1|rewrite !len_app, L1, len_dropN; lia].
      cbn [bind]. destruct (Ob (pre ++ x) (dropN (len x) mid)) as (r & E & Er & El).
      * rewrite len_dropN. lia.
      * rewrite !len_app. lia.
      * exists r. split; [exact E|]. split; [exact Er|]. rewrite El, !len_app, len_dropN. lia.
  - intros r e H. unfold seqw. rewrite (Sa _ _ H). cbn [bind]. now apply Sb with e.
Qed.
Lemma ret_writes : writes (fun r => Ok r) [].
Proof.
  split; [|split].
  - intros pre mid post H1 H2. apply len_0_nil in H1. subst. now rewrite app_nil_r.
  - intros pre mid H1 H2. rewrite len_nil in H1. lia.
  - intros r e H. reflexivity.
Qed.
Lemma seq_all_writes : forall A (f : A -> wr) (g : A -> bytes) l,
  Forall (fun x => writes (f x) (g x)) l -> writes (seq_all f l) (concat (map g l)).
Proof.
  induction 1 as [|x l Hx Hl IH]; cbn [map concat].
  - apply ret_writes.
  - apply (seqw_writes (f x) (seq_all f l)); assumption.
Qed.
Lemma writes_eq : forall w x y, writes w x -> x = y -> writes w y.
Proof. intros. now subst. Qed.
Lemma set_u1_writes : forall v, v < 256 -> writes (set_u 1 v) [v].
Proof.
  intros v H. apply writes_eq with (be 1 v); [apply set_u_writes|].
  cbn [be]. change (N.of_nat 0) with 0. rewrite N.pow_0_r, N.div_1_r, N.mod_small by lia. reflexivity.
Qed.

(** ** Reader combinators *)
Lemma ret_parses : forall A (x : A), parses (rret x) [] x.
Proof. intros A x pre post H. unfold rret. cbn [app]. now rewrite app_nil_r. Qed.
Lemma bind_parses : forall A B (m : rd A) (k : A -> rd B) a b x y,
  parses m a x -> parses (k x) b y -> parses (rbind m k) (a ++ b) y.
Proof.
  intros A B m k a b x y Hm Hk pre post H. unfold rbind. rewrite !len_app in H.
  rewrite <- app_assoc. rewrite Hm by (rewrite !len_app; lia).
  rewrite Hk by (rewrite !len_app; lia). now rewrite app_assoc.
Qed.
Lemma bind_parses_nil : forall A B (m : rd A) (k : A -> rd B) a x y,
  parses m a x -> parses (k x) [] y -> parses (rbind m k) a y.
Proof. intros. rewrite <- (app_nil_r a). now apply bind_parses with x. Qed.
Lemma bind_rejects : forall A B (m : rd A) (k : A -> rd B) a b x e,
  parses m a x -> rejects (k x) b e -> rejects (rbind m k) (a ++ b) e.
Proof.
  intros A B m k a b x e Hm Hk pre post H. unfold rbind. rewrite !len_app in H.
  rewrite <- app_assoc. rewrite Hm by (rewrite !len_app; lia).
  apply Hk. rewrite !len_app; lia.
Qed.
Lemma bind_rejects_nil : forall A B (m : rd A) (k : A -> rd B) a x e,
  parses m a x -> rejects (k x) [] e -> rejects (rbind m k) a e.
Proof. intros. rewrite <- (app_nil_r a). now apply bind_rejects with x. Qed.
Lemma bind_rejects_l : forall A B (m : rd A) (k : A -> rd B) a e,
  rejects m a e -> rejects (rbind m k) a e.
Proof. intros A B m k a e Hm pre post H. unfold rbind. destruct (Hm pre post H) as (r & ->). now exists r. Qed.
Lemma err_rejects : forall A e bs, rejects (@rerr A e) bs e.
Proof. intros A e bs pre post H. unfold rerr. eauto. Qed.
Lemma get_u_parses : forall k l, List.length l = k -> parses (get_u k) l (unbe l).
Proof.
  intros k l Hl pre post H. assert (L : len l = N.of_nat k) by (unfold len; now rewrite Hl).
  rewrite !len_app in H. unfold get_u.
  rewrite check_ok by (rewrite ?len_app; lia). unfold at_ at 1 2. cbn [dr_off dr_buf].
  rewrite dropN_app_len. rewrite get_be_exact by exact Hl.
  f_equal. unfold at_off, at_. cbn [dr_buf dr_off dr_err].
  rewrite len_app, <- app_assoc, u32_small by lia. now rewrite L.
Qed.
Lemma get_u_be_parses : forall k v, v < 256 ^ N.of_nat k -> parses (get_u k) (be k v) v.
Proof.
  intros k v H. rewrite <- (unbe_be_small k v H) at 2. apply get_u_parses. apply be_length.
Qed.
Lemma get_u1_parses : forall b, parses (get_u 1) [b] b.
Proof. intros b. apply (get_u_parses 1 [b]). reflexivity. Qed.
Lemma get_bytes_parses : forall n s, len s = n -> parses (get_bytes n) s s.
Proof.
  intros n s Hs pre post H. subst n. rewrite !len_app in H. unfold get_bytes.
  rewrite check_ok by (rewrite ?len_app; lia). unfold at_ at 1 2 3 4 5 6. cbn [dr_off dr_buf].
  rewrite u32_small by lia. rewrite !len_app.
  destruct (N.leb_spec (len pre) (len pre + len s)); [|lia].
  destruct (N.leb_spec (len pre + len s) (len pre + (len s + len post))); [|lia]. cbn [andb].
  rewrite dropN_app_len, takeN_app_len.
  f_equal. unfold at_off, at_. cbn [dr_buf dr_off dr_err]. rewrite len_app, <- app_assoc, u32_small by lia. reflexivity.
Qed.
Lemma discard_parses : forall n s, len s = n -> parses (discard n) s tt.
Proof.
  intros n s Hs pre post H. subst n. rewrite !len_app in H. unfold discard.
  rewrite check_ok by (rewrite ?len_app; lia).
  f_equal. unfold at_off, at_. cbn [dr_buf dr_off dr_err]. rewrite len_app, <- app_assoc, u32_small by lia. reflexivity.
Qed.
Lemma peek_at : forall pre b post, len (pre ++ b :: post) < 4294967296 ->
  peek_u8 (at_ pre (b :: post)) = (Ok b, at_ pre (b :: post)).
Proof.
  intros pre b post H. rewrite len_app, len_cons in H. unfold peek_u8.
  rewrite check_ok by (rewrite ?len_app, ?len_cons; lia).
  unfold at_ at 1 2. cbn [dr_off dr_buf]. now rewrite dropN_app_len.
Qed.

(** ** Prefix bytes *)
Lemma byte_forall : forall f : N -> bool, forallb f (map N.of_nat (seq 0 256)) = true ->
  forall b, b < 256 -> f b = true.
Proof.
  intros f H b Hb. rewrite forallb_forall in H. apply H. apply in_map_iff.
  exists (N.to_nat b). split; [lia|]. apply in_seq. lia.
Qed.
Lemma fix_int_spec : forall b, b < 256 -> is_fix_int b = (b <? 128).
Proof.
  intros b Hb. apply eqb_prop. revert b Hb.
  apply (byte_forall (fun b => Bool.eqb (is_fix_int b) (b <? 128))). vm_compute. reflexivity.
Qed.
Lemma neg_fix_int_spec : forall b, b < 256 -> is_neg_fix_int b = (224 <=? b).
Proof.
  intros b Hb. apply eqb_prop. revert b Hb.
  apply (byte_forall (fun b => Bool.eqb (is_neg_fix_int b) (224 <=? b))). vm_compute. reflexivity.
Qed.
Lemma fix_map_spec : forall b, b < 256 -> is_fix_map b = ((128 <=? b) && (b <? 144)).
Proof.
  intros b Hb. apply eqb_prop. revert b Hb.
  apply (byte_forall (fun b => Bool.eqb (is_fix_map b) ((128 <=? b) && (b <? 144)))). vm_compute. reflexivity.
Qed.
Lemma fix_arr_spec : forall b, b < 256 -> is_fix_arr b = ((144 <=? b) && (b <? 160)).
Proof.
  intros b Hb. apply eqb_prop. revert b Hb.
  apply (byte_forall (fun b => Bool.eqb (is_fix_arr b) ((144 <=? b) && (b <? 160)))). vm_compute. reflexivity.
Qed.
Lemma fix_str_spec : forall b, b < 256 -> is_fix_str b = ((160 <=? b) && (b <? 192)).
Proof.
  intros b Hb. apply eqb_prop. revert b Hb.
  apply (byte_forall (fun b => Bool.eqb (is_fix_str b) ((160 <=? b) && (b <? 192)))). vm_compute. reflexivity.
Qed.
Lemma land_31 : forall n, n < 32 -> N.land (160 + n) 31 = n.
Proof.
  intros n Hn. apply N.eqb_eq.
  assert (G := byte_forall (fun b => negb (b <? 32) || (N.land (160 + b) 31 =? b)) eq_refl n ltac:(lia)).
  cbv beta in G. destruct (N.ltb_spec n 32); [exact G|lia].
Qed.
Lemma land_15 : forall n k, (k = 144 \/ k = 128) -> n < 16 -> N.land (k + n) 15 = n.
Proof.
  intros n k Hk Hn. apply N.eqb_eq. destruct Hk; subst k.
  - assert (G := byte_forall (fun b => negb (b <? 16) || (N.land (144 + b) 15 =? b)) eq_refl n ltac:(lia)).
    cbv beta in G. destruct (N.ltb_spec n 16); [exact G|lia].
  - assert (G := byte_forall (fun b => negb (b <? 16) || (N.land (128 + b) 15 =? b)) eq_refl n ltac:(lia)).
    cbv beta in G. destruct (N.ltb_spec n 16); [exact G|lia].
Qed.
Lemma lor_224 : forall n, 224 <= n -> n < 256 -> N.lor n 224 = n.
Proof.
  intros n Hn Hn'. apply N.eqb_eq.
  assert (G := byte_forall (fun b => negb (224 <=? b) || (N.lor b 224 =? b)) eq_refl n ltac:(lia)).
  cbv beta in G. destruct (N.leb_spec 224 n); [exact G|lia].
Qed.
Lemma lor_small : forall n k, (k = 160 /\ n < 32) \/ ((k = 144 \/ k = 128) /\ n < 16) -> N.lor n k = k + n.
Proof.
  intros n k H. apply N.eqb_eq. destruct H as [[-> H]|[[-> | ->] H]].
  - assert (G := byte_forall (fun b => negb (b <? 32) || (N.lor b 160 =? 160 + b)) eq_refl n ltac:(lia)).
    cbv beta in G. destruct (N.ltb_spec n 32); [exact G|lia].
  - assert (G := byte_forall (fun b => negb (b <? 16) || (N.lor b 144 =? 144 + b)) eq_refl n ltac:(lia)).
    cbv beta in G. destruct (N.ltb_spec n 16); [exact G|lia].
  - assert (G := byte_forall (fun b => negb (b <? 16) || (N.lor b 128 =? 128 + b)) eq_refl n ltac:(lia)).
    cbv beta in G. destruct (N.ltb_spec n 16); [exact G|lia].
Qed.

(** Signed conversions *)
Lemma of_to_u : forall k z, (- (256 ^ Z.of_nat k) <= 2 * z < 256 ^ Z.of_nat k)%Z -> of_u k (to_u k z) = z.
Proof.
  intros k z H. unfold of_u, to_u. set (m := (256 ^ Z.of_nat k)%Z) in *.
  assert (0 < m)%Z by (apply Z.pow_pos_nonneg; lia).
  rewrite Z2N.id by (apply Z.mod_pos_bound; lia).
  destruct (Z.le_gt_cases 0 z).
  - rewrite Z.mod_small by lia. destruct (Z.ltb_spec (2 * z) m); lia.
  - replace (z mod m)%Z with (z + m)%Z.
    + destruct (Z.ltb_spec (2 * (z + m)) m); lia.
    + symmetry. rewrite <- (Z_mod_plus_full z 1 m). rewrite Z.mod_small; lia.
Qed.
Lemma to_u_lt : forall k z, to_u k z < 256 ^ N.of_nat k.
Proof.
  intros k z. unfold to_u.
  assert (0 < 256 ^ Z.of_nat k)%Z by (apply Z.pow_pos_nonneg; lia).
  assert (B := Z.mod_pos_bound z (256 ^ Z.of_nat k) ltac:(lia)).
  rewrite <- (N2Z.id (256 ^ N.of_nat k)). apply Z2N.inj_lt; [lia|lia|].
  rewrite N2Z.inj_pow, nat_N_Z. change (Z.of_N 256) with 256%Z. lia.
Qed.
Lemma of_u_range : forall k n, n < 256 ^ N.of_nat k -> (- (256 ^ Z.of_nat k) <= 2 * of_u k n < 256 ^ Z.of_nat k)%Z.
Proof.
  intros k n H. unfold of_u.
  assert (Hz : (Z.of_N n < 256 ^ Z.of_nat k)%Z).
  { apply N2Z.inj_lt in H. rewrite N2Z.inj_pow, nat_N_Z in H. exact H. }
  destruct (Z.ltb_spec (2 * Z.of_N n) (256 ^ Z.of_nat k)); lia.
Qed.
Lemma to_of_u : forall k n, n < 256 ^ N.of_nat k -> to_u k (of_u k n) = n.
Proof.
  intros k n H. unfold of_u, to_u.
  assert (Hz : (Z.of_N n < 256 ^ Z.of_nat k)%Z).
  { apply N2Z.inj_lt in H. rewrite N2Z.inj_pow, nat_N_Z in H. exact H. }
  destruct (Z.ltb_spec (2 * Z.of_N n) (256 ^ Z.of_nat k)).
  - rewrite Z.mod_small by lia. apply N2Z.id.
  - replace (Z.of_N n - 256 ^ Z.of_nat k)%Z with (Z.of_N n + (-1) * 256 ^ Z.of_nat k)%Z by lia.
    rewrite Z_mod_plus_full, Z.mod_small by lia. apply N2Z.id.
Qed.
Lemma get_i_parses : forall k z, (- (256 ^ Z.of_nat k) <= 2 * z < 256 ^ Z.of_nat k)%Z ->
  parses (get_i k) (be k (to_u k z)) z.
Proof.
  intros k z H. unfold get_i. apply bind_parses_nil with (to_u k z).
  - apply get_u_be_parses. apply to_u_lt.
  - rewrite of_to_u by exact H. apply ret_parses.
Qed.
