(** The single values of MessagePack: what is written, and how it is read. *)
From Verif Require Import Base BaseFacts MsgpackModel MsgpackSpec MsgpackProofs.
Local Ltac Zify.zify_post_hook ::= Z.div_mod_to_equations.

Lemma two_to_u : forall k z, two k z = be k (to_u k z). Proof. reflexivity. Qed.
Lemma be_1 : forall n, n < 256 -> be 1 n = [n].
Proof.
  intros n H. cbn [be]. change (N.of_nat 0) with 0. rewrite N.pow_0_r, N.div_1_r, N.mod_small by lia. reflexivity.
Qed.
Ltac pows :=
  unfold fits_i, fits_u in *;
  change (256 ^ Z.of_nat 1)%Z with 256%Z in *; change (256 ^ Z.of_nat 2)%Z with 65536%Z in *;
  change (256 ^ Z.of_nat 4)%Z with 4294967296%Z in *; change (256 ^ Z.of_nat 8)%Z with 18446744073709551616%Z in *;
  change (256 ^ N.of_nat 1) with 256 in *; change (256 ^ N.of_nat 2) with 65536 in *;
  change (256 ^ N.of_nat 4) with 4294967296 in *; change (256 ^ N.of_nat 8) with 18446744073709551616 in *.
Ltac lens := rewrite ?len_cons, ?len_app, ?two_to_u, ?len_be, ?len_nil.
Lemma set_u1_then : forall p w bs, p < 256 -> writes w bs -> writes (set_u 1 p ;;; w) (p :: bs).
Proof. intros p w bs H Hw. apply (seqw_writes (set_u 1 p) w [p] bs); [now apply set_u1_writes|exact Hw]. Qed.

(** Integers *)
Definition mp_int (v : Z) : bytes :=
  if (0 <=? v)%Z && (v <? 128)%Z then [Z.to_N v]
  else if (v <? 0)%Z && (-32 <=? v)%Z then [Z.to_N (256 + v)]
  else if (v <=? 127)%Z && (-128 <=? v)%Z then 208 :: two 1 v
  else if (v <=? 32767)%Z && (-32768 <=? v)%Z then 209 :: two 2 v
  else if (v <=? 2147483647)%Z && (-2147483648 <=? v)%Z then 210 :: two 4 v
  else 211 :: two 8 v.
Lemma mp_int_writes : forall v, writes (enc_int v) (mp_int v).
Proof.
  intros v. unfold enc_int, mp_int.
  destruct (Z.leb_spec 0 v); destruct (Z.ltb_spec v 128); cbn [andb].
  { replace (to_u 1 v) with (Z.to_N v) by (unfold to_u; rewrite Z.mod_small; [reflexivity|change (256 ^ Z.of_nat 1)%Z with 256%Z; lia]).
    apply set_u1_writes. lia. }
  all: destruct (Z.ltb_spec v 0); destruct (Z.leb_spec (-32) v); cbn [andb]; try lia.
  all: try (replace (to_u 1 v) with (Z.to_N (256 + v)) by
      (unfold to_u; change (256 ^ Z.of_nat 1)%Z with 256%Z; rewrite <- (Z_mod_plus_full v 1 256), Z.mod_small by lia; f_equal; lia);
      rewrite lor_224 by lia; apply set_u1_writes; lia).
  all: repeat (match goal with |- context [if ?c then _ else _] => destruct c end);
    (apply set_u1_then; [reflexivity|apply set_u_writes]).
Qed.
Lemma mp_int_shortest : forall v, fits_i 8 v -> shortest int_form (mp_int v) v.
Proof.
  intros v Hv. unfold mp_int. pows.
  destruct (Z.leb_spec 0 v); destruct (Z.ltb_spec v 128); cbn [andb].
  { split; [apply if_pos; lia|]. intros bs' H'. destruct H'; lens; lia. }
  all: destruct (Z.ltb_spec v 0); destruct (Z.leb_spec (-32) v); cbn [andb]; try lia.
  all: try (split; [apply if_neg; lia|]; intros bs' H'; destruct H'; lens; lia).
  all: destruct (Z.leb_spec v 127); destruct (Z.leb_spec (-128) v); cbn [andb]; try lia;
    try (split; [apply if_8; pows; lia|]; intros bs' H'; destruct H'; pows; lens; lia).
  all: destruct (Z.leb_spec v 32767); destruct (Z.leb_spec (-32768) v); cbn [andb]; try lia;
    try (split; [apply if_16; pows; lia|]; intros bs' H'; destruct H'; pows; lens; lia).
  all: destruct (Z.leb_spec v 2147483647); destruct (Z.leb_spec (-2147483648) v); cbn [andb]; try lia;
    try (split; [apply if_32; pows; lia|]; intros bs' H'; destruct H'; pows; lens; lia).
  all: split; [apply if_64; pows; lia|]; intros bs' H'; destruct H'; pows; lens; lia.
Qed.
Lemma mp_int_len : forall v, len (mp_int v) = siz_int v.
Proof.
  intros v. unfold mp_int, siz_int.
  repeat match goal with |- context [(?a <=? ?b)%Z] => destruct (Z.leb_spec a b) end;
  repeat match goal with |- context [(?a <? ?b)%Z] => destruct (Z.ltb_spec a b) end;
  cbn [andb]; lens; lia.
Qed.
Lemma prefix_false : forall p, 192 <= p -> p < 224 ->
  is_fix_int p = false /\ is_neg_fix_int p = false /\ is_fix_str p = false /\ is_fix_arr p = false /\ is_fix_map p = false.
Proof.
  intros p H1 H2. rewrite fix_int_spec, neg_fix_int_spec, fix_str_spec, fix_arr_spec, fix_map_spec by lia.
  destruct (N.ltb_spec p 128), (N.leb_spec 224 p), (N.ltb_spec p 192), (N.ltb_spec p 160), (N.ltb_spec p 144); lia.
Qed.
Lemma int_form_parses : forall bs z, int_form bs z -> parses read_int64 bs z.
Proof.
  intros bs z H. destruct H; unfold read_int64; pows.
  - apply bind_parses_nil with (Z.to_N z); [apply get_u1_parses|].
    rewrite fix_int_spec by lia. destruct (N.ltb_spec (Z.to_N z) 128); [|lia]. cbn [orb].
    unfold of_u. change (256 ^ Z.of_nat 1)%Z with 256%Z. rewrite Z2N.id by lia.
    destruct (Z.ltb_spec (2 * z) 256); [|lia]. apply ret_parses.
  - apply bind_parses_nil with (Z.to_N (256 + z)); [apply get_u1_parses|].
    rewrite fix_int_spec, neg_fix_int_spec by lia.
    destruct (N.leb_spec 224 (Z.to_N (256 + z))); [|lia]. rewrite orb_true_r.
    unfold of_u. change (256 ^ Z.of_nat 1)%Z with 256%Z. rewrite Z2N.id by lia.
    destruct (Z.ltb_spec (2 * (256 + z)) 256); [lia|].
    replace (256 + z - 256)%Z with z by lia. apply ret_parses.
  - apply (bind_parses _ _ _ _ [208] _ 208); [apply get_u1_parses|]. cbn. apply (get_i_parses 1). pows; lia.
  - apply (bind_parses _ _ _ _ [209] _ 209); [apply get_u1_parses|]. cbn. apply (get_i_parses 2). pows; lia.
  - apply (bind_parses _ _ _ _ [210] _ 210); [apply get_u1_parses|]. cbn. apply (get_i_parses 4). pows; lia.
  - apply (bind_parses _ _ _ _ [211] _ 211); [apply get_u1_parses|]. cbn. apply (get_i_parses 8). pows; lia.
Qed.
Lemma read_int_parses : forall k bs z, int_form bs z -> fits_i k z -> parses (read_int k) bs z.
Proof.
  intros k bs z H Hk. apply bind_parses_nil with z; [now apply int_form_parses|].
  unfold fits_i in Hk. cbv zeta. destruct (Z.ltb_spec (2 * z) (256 ^ Z.of_nat k)); [|lia].
  destruct (Z.leb_spec (- 256 ^ Z.of_nat k) (2 * z)); [|lia]. apply ret_parses.
Qed.
Lemma read_int_rejects : forall k bs z, int_form bs z -> ~ fits_i k z -> rejects (read_int k) bs "interger overflow".
Proof.
  intros k bs z H Hk. apply bind_rejects_nil with z; [now apply int_form_parses|].
  unfold fits_i in Hk. cbv zeta.
  destruct (Z.ltb_spec (2 * z) (256 ^ Z.of_nat k)); destruct (Z.leb_spec (- 256 ^ Z.of_nat k) (2 * z)); cbn [andb];
    try apply err_rejects. exfalso. apply Hk. lia.
Qed.

(** Unsigned integers *)
Definition mp_uint (n : N) : bytes :=
  if n <? 128 then [n] else if n <=? 255 then 204 :: be 1 n else if n <=? 65535 then 205 :: be 2 n
  else if n <=? 4294967295 then 206 :: be 4 n else 207 :: be 8 n.
Lemma mp_uint_writes : forall n, writes (enc_uint n) (mp_uint n).
Proof.
  intros n. unfold enc_uint, mp_uint.
  destruct (N.ltb_spec n 128); [rewrite u8_small by lia; apply set_u1_writes; lia|].
  destruct (N.leb_spec n 255); [rewrite u8_small by lia; apply set_u1_then; [reflexivity|apply set_u_writes]|].
  destruct (N.leb_spec n 65535); [rewrite u16_small by lia; apply set_u1_then; [reflexivity|apply set_u_writes]|].
  destruct (N.leb_spec n 4294967295); [rewrite u32_small by lia; apply set_u1_then; [reflexivity|apply set_u_writes]|].
  apply set_u1_then; [reflexivity|apply set_u_writes].
Qed.
Lemma mp_uint_shortest : forall n, fits_u 8 n -> shortest uint_form (mp_uint n) n.
Proof.
  intros n Hn. unfold mp_uint. pows.
  destruct (N.ltb_spec n 128).
  { split; [now apply uf_fix|]. intros bs' H'; destruct H'; lens; lia. }
  destruct (N.leb_spec n 255).
  { split; [apply uf_8; pows; lia|]. intros bs' H'; destruct H'; pows; lens; lia. }
  destruct (N.leb_spec n 65535).
  { split; [apply uf_16; pows; lia|]. intros bs' H'; destruct H'; pows; lens; lia. }
  destruct (N.leb_spec n 4294967295).
  { split; [apply uf_32; pows; lia|]. intros bs' H'; destruct H'; pows; lens; lia. }
  split; [apply uf_64; pows; lia|]. intros bs' H'; destruct H'; pows; lens; lia.
Qed.
Lemma mp_uint_len : forall n, len (mp_uint n) = siz_uint n.
Proof.
  intros n. unfold mp_uint, siz_uint.
  repeat match goal with |- context [?a <=? ?b] => destruct (N.leb_spec a b) end;
  repeat match goal with |- context [?a <? ?b] => destruct (N.ltb_spec a b) end; lens; lia.
Qed.
Lemma uint_form_parses : forall bs n, uint_form bs n -> parses read_uint64 bs n.
Proof.
  intros bs n H. destruct H; unfold read_uint64; pows.
  - apply bind_parses_nil with n; [apply get_u1_parses|].
    rewrite fix_int_spec by lia. destruct (N.ltb_spec n 128); [|lia]. apply ret_parses.
  - apply (bind_parses _ _ _ _ [204] _ 204); [apply get_u1_parses|]. cbn. apply (get_u_be_parses 1). pows; lia.
  - apply (bind_parses _ _ _ _ [205] _ 205); [apply get_u1_parses|]. cbn. apply (get_u_be_parses 2). pows; lia.
  - apply (bind_parses _ _ _ _ [206] _ 206); [apply get_u1_parses|]. cbn. apply (get_u_be_parses 4). pows; lia.
  - apply (bind_parses _ _ _ _ [207] _ 207); [apply get_u1_parses|]. cbn. apply (get_u_be_parses 8). pows; lia.
Qed.
Lemma nonneg_parses : forall m bs z, (0 <= z)%Z -> parses m bs z -> parses (nonneg m) bs (Z.to_N z).
Proof.
  intros m bs z Hz H. apply bind_parses_nil with z; [exact H|].
  destruct (Z.ltb_spec z 0); [lia|]. apply ret_parses.
Qed.
Lemma nonneg_rejects : forall m bs z, (z < 0)%Z -> parses m bs z -> rejects (nonneg m) bs "bad prefix for uint".
Proof.
  intros m bs z Hz H. apply bind_rejects_nil with z; [exact H|].
  destruct (Z.ltb_spec z 0); [|lia]. apply err_rejects.
Qed.
Lemma int_form_uint : forall bs z, int_form bs z -> (0 <= z)%Z -> parses read_uint64 bs (Z.to_N z).
Proof.
  intros bs z H Hz. destruct H; unfold read_uint64; pows; try lia.
  - apply bind_parses_nil with (Z.to_N z); [apply get_u1_parses|].
    rewrite fix_int_spec by lia. destruct (N.ltb_spec (Z.to_N z) 128); [|lia]. apply ret_parses.
  - apply (bind_parses _ _ _ _ [208] _ 208); [apply get_u1_parses|]. cbn. apply nonneg_parses; [lia|]. apply (get_i_parses 1). pows; lia.
  - apply (bind_parses _ _ _ _ [209] _ 209); [apply get_u1_parses|]. cbn. apply nonneg_parses; [lia|]. apply (get_i_parses 2). pows; lia.
  - apply (bind_parses _ _ _ _ [210] _ 210); [apply get_u1_parses|]. cbn. apply nonneg_parses; [lia|]. apply (get_i_parses 4). pows; lia.
  - apply (bind_parses _ _ _ _ [211] _ 211); [apply get_u1_parses|]. cbn. apply nonneg_parses; [lia|]. apply (get_i_parses 8). pows; lia.
Qed.
Lemma int_form_uint_rejects : forall bs z, int_form bs z -> (z < 0)%Z -> rejects read_uint64 bs "bad prefix for uint".
Proof.
  intros bs z H Hz. destruct H; unfold read_uint64; pows; try lia.
  - apply bind_rejects_nil with (Z.to_N (256 + z)); [apply get_u1_parses|].
    rewrite fix_int_spec, neg_fix_int_spec by lia.
    destruct (N.ltb_spec (Z.to_N (256 + z)) 128); [lia|].
    destruct (N.leb_spec 224 (Z.to_N (256 + z))); [|lia].
    apply nonneg_rejects with (of_u 1 (Z.to_N (256 + z))); [|apply ret_parses].
    unfold of_u. change (256 ^ Z.of_nat 1)%Z with 256%Z. destruct (Z.ltb_spec (2 * Z.of_N (Z.to_N (256 + z))) 256); lia.
  - apply (bind_rejects _ _ _ _ [208] _ 208); [apply get_u1_parses|]. cbn. apply nonneg_rejects with z; [lia|]. apply (get_i_parses 1). pows; lia.
  - apply (bind_rejects _ _ _ _ [209] _ 209); [apply get_u1_parses|]. cbn. apply nonneg_rejects with z; [lia|]. apply (get_i_parses 2). pows; lia.
  - apply (bind_rejects _ _ _ _ [210] _ 210); [apply get_u1_parses|]. cbn. apply nonneg_rejects with z; [lia|]. apply (get_i_parses 4). pows; lia.
  - apply (bind_rejects _ _ _ _ [211] _ 211); [apply get_u1_parses|]. cbn. apply nonneg_rejects with z; [lia|]. apply (get_i_parses 8). pows; lia.
Qed.
Lemma read_uint_parses : forall k bs n, parses read_uint64 bs n -> fits_u k n -> parses (read_uint k) bs n.
Proof.
  intros k bs n H Hk. apply bind_parses_nil with n; [exact H|].
  unfold fits_u in Hk. destruct (N.ltb_spec n (256 ^ N.of_nat k)); [|lia]. apply ret_parses.
Qed.
Lemma read_uint_rejects : forall k bs n, parses read_uint64 bs n -> ~ fits_u k n -> rejects (read_uint k) bs "interger overflow".
Proof.
  intros k bs n H Hk. apply bind_rejects_nil with n; [exact H|].
  unfold fits_u in Hk. destruct (N.ltb_spec n (256 ^ N.of_nat k)); [lia|]. apply err_rejects.
Qed.
Lemma uint_form_int_rejects : forall bs n, uint_form bs n -> 1 < len bs -> rejects read_int64 bs "bad prefix for int64".
Proof.
  intros bs n H Hl. destruct H; unfold read_int64; [rewrite len_cons, len_nil in Hl; lia|..].
  - apply (bind_rejects _ _ _ _ [204] _ 204); [apply get_u1_parses|]. cbn. apply err_rejects.
  - apply (bind_rejects _ _ _ _ [205] _ 205); [apply get_u1_parses|]. cbn. apply err_rejects.
  - apply (bind_rejects _ _ _ _ [206] _ 206); [apply get_u1_parses|]. cbn. apply err_rejects.
  - apply (bind_rejects _ _ _ _ [207] _ 207); [apply get_u1_parses|]. cbn. apply err_rejects.
Qed.

(** Bool, nil, floats *)
Lemma bool_writes : forall b : bool, writes (enc_bool b) [if b then 195 else 194].
Proof. intros []; apply set_u1_writes; lia. Qed.
Lemma nil_writes : writes enc_nil [192].
Proof. apply set_u1_writes; lia. Qed.
Lemma bool_parses : forall b : bool, parses read_bool [if b then 195 else 194] b.
Proof. intros []; (eapply bind_parses_nil; [apply get_u1_parses|]); cbn; apply ret_parses. Qed.
Lemma f32_writes : forall x, writes (enc_f32 x) (202 :: be 4 x).
Proof. intros x. apply set_u1_then; [reflexivity|apply set_u_writes]. Qed.
Lemma f64_writes : forall x, writes (enc_f64 x) (203 :: be 8 x).
Proof. intros x. apply set_u1_then; [reflexivity|apply set_u_writes]. Qed.
Lemma f32_parses : forall nw x, fits_u 4 x -> parses (read_f32 nw) (202 :: be 4 x) x.
Proof. intros nw x H. apply (bind_parses _ _ _ _ [202] _ 202); [apply get_u1_parses|]. cbn. now apply (get_u_be_parses 4). Qed.
Lemma f64_parses : forall x, fits_u 8 x -> parses read_f64 (203 :: be 8 x) x.
Proof. intros x H. apply (bind_parses _ _ _ _ [203] _ 203); [apply get_u1_parses|]. cbn. now apply (get_u_be_parses 8). Qed.

(** Strings and byte arrays *)
Definition mp_str_len (n : N) : bytes :=
  if n <? 32 then [160 + n] else if n <=? 255 then 217 :: be 1 n else if n <=? 65535 then 218 :: be 2 n else 219 :: be 4 n.
Definition mp_bin_len (n : N) : bytes :=
  if n <=? 255 then 196 :: be 1 n else if n <=? 65535 then 197 :: be 2 n else 198 :: be 4 n.
Definition mp_arr (n : N) : bytes :=
  if n <? 16 then [144 + n] else if n <=? 65535 then 220 :: be 2 n else 221 :: be 4 n.
Definition mp_map (n : N) : bytes :=
  if n <? 16 then [128 + n] else if n <=? 65535 then 222 :: be 2 n else 223 :: be 4 n.
Definition mp_str (s : bytes) : bytes := mp_str_len (len s) ++ s.
Definition mp_bin (s : bytes) : bytes := mp_bin_len (len s) ++ s.
Lemma mp_str_len_writes : forall n, writes (enc_str_len n) (mp_str_len n).
Proof.
  intros n. unfold enc_str_len, mp_str_len.
  destruct (N.ltb_spec n 32); [rewrite u8_small, lor_small by lia; apply set_u1_writes; lia|].
  destruct (N.leb_spec n 255); [rewrite u8_small by lia; apply set_u1_then; [reflexivity|apply set_u_writes]|].
  destruct (N.leb_spec n 65535); [rewrite u16_small by lia; apply set_u1_then; [reflexivity|apply set_u_writes]|].
  apply set_u1_then; [reflexivity|apply set_u_writes].
Qed.
Lemma mp_bin_len_writes : forall n, writes (enc_bin_len n) (mp_bin_len n).
Proof.
  intros n. unfold enc_bin_len, mp_bin_len.
  destruct (N.leb_spec n 255); [rewrite u8_small by lia; apply set_u1_then; [reflexivity|apply set_u_writes]|].
  destruct (N.leb_spec n 65535); [rewrite u16_small by lia; apply set_u1_then; [reflexivity|apply set_u_writes]|].
  apply set_u1_then; [reflexivity|apply set_u_writes].
Qed.
Lemma mp_arr_writes : forall n, writes (enc_arr n) (mp_arr n).
Proof.
  intros n. unfold enc_arr, mp_arr.
  destruct (N.ltb_spec n 16); [rewrite u8_small, lor_small by lia; apply set_u1_writes; lia|].
  destruct (N.leb_spec n 65535); [rewrite u16_small by lia; apply set_u1_then; [reflexivity|apply set_u_writes]|].
  apply set_u1_then; [reflexivity|apply set_u_writes].
Qed.
Lemma mp_map_writes : forall n, writes (enc_map n) (mp_map n).
Proof.
  intros n. unfold enc_map, mp_map.
  destruct (N.ltb_spec n 16); [rewrite u8_small, lor_small by lia; apply set_u1_writes; lia|].
  destruct (N.leb_spec n 65535); [rewrite u16_small by lia; apply set_u1_then; [reflexivity|apply set_u_writes]|].
  apply set_u1_then; [reflexivity|apply set_u_writes].
Qed.
Lemma mp_str_writes : forall s, len s < 4294967296 -> writes (enc_str s) (mp_str s).
Proof.
  intros s H. unfold enc_str, mp_str. rewrite u32_small by lia.
  apply seqw_writes; [apply mp_str_len_writes|apply set_bytes_writes].
Qed.
Lemma mp_bin_writes : forall s, len s < 4294967296 -> writes (enc_bin s) (mp_bin s).
Proof.
  intros s H. unfold enc_bin, mp_bin. rewrite u32_small by lia.
  destruct (N.eqb_spec (len s) 0) as [E|E].
  - apply len_0_nil in E. subst s. apply (set_u1_then 196); [reflexivity|]. apply set_u_writes.
  - apply seqw_writes; [apply mp_bin_len_writes|apply set_bytes_writes].
Qed.
Ltac short4 cons := split; [apply cons; pows; lia|]; intros bs' H'; destruct H'; pows; lens; lia.
Lemma mp_str_len_shortest : forall n, fits_u 4 n -> shortest str_form (mp_str_len n) n.
Proof.
  intros n H. unfold mp_str_len. pows.
  destruct (N.ltb_spec n 32); [short4 sf_fix|]. destruct (N.leb_spec n 255); [short4 sf_8|].
  destruct (N.leb_spec n 65535); [short4 sf_16|]. short4 sf_32.
Qed.
Lemma mp_bin_len_shortest : forall n, fits_u 4 n -> shortest bin_form (mp_bin_len n) n.
Proof.
  intros n H. unfold mp_bin_len. pows.
  destruct (N.leb_spec n 255); [short4 bf_8|]. destruct (N.leb_spec n 65535); [short4 bf_16|]. short4 bf_32.
Qed.
Lemma mp_arr_shortest : forall n, fits_u 4 n -> shortest arr_form (mp_arr n) n.
Proof.
  intros n H. unfold mp_arr. pows.
  destruct (N.ltb_spec n 16); [short4 af_fix|]. destruct (N.leb_spec n 65535); [short4 af_16|]. short4 af_32.
Qed.
Lemma mp_map_shortest : forall n, fits_u 4 n -> shortest map_form (mp_map n) n.
Proof.
  intros n H. unfold mp_map. pows.
  destruct (N.ltb_spec n 16); [short4 mf_fix|]. destruct (N.leb_spec n 65535); [short4 mf_16|]. short4 mf_32.
Qed.
Lemma str_form_parses : forall bs n, str_form bs n -> parses read_str_len bs n.
Proof.
  intros bs n H. destruct H; unfold read_str_len; pows.
  - apply bind_parses_nil with (160 + n); [apply get_u1_parses|]. rewrite fix_str_spec by lia.
    destruct (N.leb_spec 160 (160 + n)), (N.ltb_spec (160 + n) 192); try lia. cbn [andb].
    rewrite land_31 by lia. apply ret_parses.
  - apply (bind_parses _ _ _ _ [217] _ 217); [apply get_u1_parses|]. cbn. apply (get_u_be_parses 1). pows; lia.
  - apply (bind_parses _ _ _ _ [218] _ 218); [apply get_u1_parses|]. cbn. apply (get_u_be_parses 2). pows; lia.
  - apply (bind_parses _ _ _ _ [219] _ 219); [apply get_u1_parses|]. cbn. apply (get_u_be_parses 4). pows; lia.
Qed.
Lemma bin_form_parses : forall bs n, bin_form bs n -> parses read_bin_len bs n.
Proof.
  intros bs n H. destruct H; unfold read_bin_len; pows.
  - apply (bind_parses _ _ _ _ [196] _ 196); [apply get_u1_parses|]. cbn. apply (get_u_be_parses 1). pows; lia.
  - apply (bind_parses _ _ _ _ [197] _ 197); [apply get_u1_parses|]. cbn. apply (get_u_be_parses 2). pows; lia.
  - apply (bind_parses _ _ _ _ [198] _ 198); [apply get_u1_parses|]. cbn. apply (get_u_be_parses 4). pows; lia.
Qed.
Lemma arr_form_parses : forall bs n, arr_form bs n -> parses read_arr bs n.
Proof.
  intros bs n H. destruct H; unfold read_arr; pows.
  - apply bind_parses_nil with (144 + n); [apply get_u1_parses|]. rewrite fix_arr_spec by lia.
    destruct (N.leb_spec 144 (144 + n)), (N.ltb_spec (144 + n) 160); try lia. cbn [andb].
    rewrite land_15 by lia. apply ret_parses.
  - apply (bind_parses _ _ _ _ [220] _ 220); [apply get_u1_parses|]. cbn. apply (get_u_be_parses 2). pows; lia.
  - apply (bind_parses _ _ _ _ [221] _ 221); [apply get_u1_parses|]. cbn. apply (get_u_be_parses 4). pows; lia.
Qed.
Lemma map_form_parses : forall bs n, map_form bs n -> parses read_map bs n.
Proof.
  intros bs n H. destruct H; unfold read_map; pows.
  - apply bind_parses_nil with (128 + n); [apply get_u1_parses|]. rewrite fix_map_spec by lia.
    destruct (N.leb_spec 128 (128 + n)), (N.ltb_spec (128 + n) 144); try lia. cbn [andb].
    rewrite land_15 by lia. apply ret_parses.
  - apply (bind_parses _ _ _ _ [222] _ 222); [apply get_u1_parses|]. cbn. apply (get_u_be_parses 2). pows; lia.
  - apply (bind_parses _ _ _ _ [223] _ 223); [apply get_u1_parses|]. cbn. apply (get_u_be_parses 4). pows; lia.
Qed.
Lemma str_parses : forall h s, str_form h (len s) -> parses read_str (h ++ s) s.
Proof. intros h s H. apply bind_parses with (len s); [now apply str_form_parses|now apply get_bytes_parses]. Qed.
Lemma bin_parses : forall h s, bin_form h (len s) -> parses read_bin (h ++ s) s.
Proof. intros h s H. apply bind_parses with (len s); [now apply bin_form_parses|now apply get_bytes_parses]. Qed.
Lemma mp_str_len_siz : forall n, len (mp_str_len n) = siz_str_len n.
Proof.
  intros n. unfold mp_str_len, siz_str_len.
  repeat match goal with |- context [if ?c then _ else _] => destruct c end; lens; lia.
Qed.
Lemma mp_arr_siz : forall n, len (mp_arr n) = siz_arr n.
Proof.
  intros n. unfold mp_arr, siz_arr.
  repeat match goal with |- context [if ?c then _ else _] => destruct c end; lens; lia.
Qed.
Lemma mp_map_siz : forall n, len (mp_map n) = siz_map n.
Proof.
  intros n. unfold mp_map, siz_map.
  repeat match goal with |- context [if ?c then _ else _] => destruct c end; lens; lia.
Qed.

(** Nillable values *)
Lemma is_next_nil_yes : parses is_next_nil [192] true.
Proof.
  intros pre post H. unfold is_next_nil, rbind. cbn [app] in *. rewrite peek_at by exact H. cbn [N.eqb Pos.eqb].
  assert (E := discard_parses 1 [192] eq_refl pre post H). cbn [app] in E. rewrite E. reflexivity.
Qed.
Lemma is_next_nil_no : forall b bs pre post, b <> 192 -> len (pre ++ (b :: bs) ++ post) < 4294967296 ->
  is_next_nil (at_ pre ((b :: bs) ++ post)) = (Ok false, at_ pre ((b :: bs) ++ post)).
Proof.
  intros b bs pre post Hb H. unfold is_next_nil, rbind. cbn [app] in *. rewrite peek_at by exact H.
  destruct (N.eqb_spec b 192); [contradiction|reflexivity].
Qed.
Lemma nillable_none_parses : forall A (m : rd A), parses (read_nillable m) [192] None.
Proof. intros A m. apply bind_parses_nil with true; [apply is_next_nil_yes|apply ret_parses]. Qed.
Lemma nillable_some_parses : forall A (m : rd A) b bs v, b <> 192 -> parses m (b :: bs) v -> parses (read_nillable m) (b :: bs) (Some v).
Proof.
  intros A m b bs v Hb Hm pre post H. unfold read_nillable, rbind at 1.
  rewrite is_next_nil_no by assumption.
  apply (bind_parses_nil _ _ m (fun v => rret (Some v)) (b :: bs) v); [exact Hm|apply ret_parses|exact H].
Qed.

(** Times *)
Lemma lor_shiftl_add : forall n s k, s < 2 ^ k -> N.lor (N.shiftl n k) s = n * 2 ^ k + s.
Proof.
  intros n s k H.
  assert (L : N.land (N.shiftl n k) s = 0).
  { apply N.bits_inj_0. intros i. rewrite N.land_spec. destruct (N.lt_ge_cases i k) as [Hi|Hi].
    - now rewrite N.shiftl_spec_low.
    - rewrite <- (N.mod_small s (2 ^ k) H). rewrite N.mod_pow2_bits_high by exact Hi. apply andb_false_r. }
  rewrite <- N.lxor_lor by exact L. rewrite <- N.add_nocarry_lxor by exact L. now rewrite N.shiftl_mul_pow2.
Qed.
Lemma land_high : forall x, x < 18446744073709551616 -> (N.land x 18446744069414584320 =? 0) = (x <? 4294967296).
Proof.
  intros x H.
  assert (E : N.land x 18446744069414584320 = N.shiftl (N.shiftr x 32) 32).
  { apply N.bits_inj. intros i. rewrite N.land_spec.
    change 18446744069414584320 with (N.shiftl (N.ones 32) 32).
    destruct (N.lt_ge_cases i 32) as [Hi|Hi].
    - rewrite !N.shiftl_spec_low by exact Hi. apply andb_false_r.
    - rewrite !N.shiftl_spec_high' by exact Hi. rewrite N.shiftr_spec'.
      replace (i - 32 + 32) with i by lia.
      destruct (N.lt_ge_cases i 64) as [Hj|Hj].
      + rewrite N.ones_spec_low by lia. apply andb_true_r.
      + rewrite N.ones_spec_high by lia. rewrite andb_false_r.
        rewrite <- (N.mod_small x (2 ^ 64)) by (change (2 ^ 64) with 18446744073709551616; lia).
        rewrite N.mod_pow2_bits_high by exact Hj. reflexivity. }
  rewrite E, N.shiftl_mul_pow2, N.shiftr_div_pow2.
  change (2 ^ 32) with 4294967296 in *.
  destruct (N.ltb_spec x 4294967296) as [L|L].
  - rewrite N.div_small by exact L. reflexivity.
  - apply N.eqb_neq. assert (0 < x / 4294967296) by (apply N.div_str_pos; lia). lia.
Qed.
Definition mp_time (s : Z) (n : N) : bytes :=
  if (0 <=? s)%Z && (s <? 4294967296)%Z && (n =? 0) then 214 :: 255 :: be 4 (Z.to_N s)
  else if (0 <=? s)%Z && (s <? 17179869184)%Z then 215 :: 255 :: be 8 (n * 17179869184 + Z.to_N s)
  else 199 :: 12 :: 255 :: be 4 n ++ two 8 s.
Lemma to_u8_nonneg : forall s, (0 <= s < 18446744073709551616)%Z -> to_u 8 s = Z.to_N s.
Proof. intros s H. unfold to_u. change (256 ^ Z.of_nat 8)%Z with 18446744073709551616%Z. now rewrite Z.mod_small. Qed.
Lemma to_u8_neg : forall s, (-18446744073709551616 <= s < 0)%Z -> to_u 8 s = Z.to_N (s + 18446744073709551616).
Proof.
  intros s H. unfold to_u. change (256 ^ Z.of_nat 8)%Z with 18446744073709551616%Z.
  rewrite <- (Z_mod_plus_full s 1), Z.mod_small by lia. f_equal; lia.
Qed.
Lemma time_body : forall s n, fits_i 8 s -> n < 1000000000 ->
  enc_time_body s n =
   (if (0 <=? s)%Z && (s <? 4294967296)%Z && (n =? 0) then be 4 (Z.to_N s)
    else if (0 <=? s)%Z && (s <? 17179869184)%Z then be 8 (n * 17179869184 + Z.to_N s)
    else be 4 n ++ two 8 s)
  /\ siz_time_body s n = len (enc_time_body s n).
Proof.
  intros s n Hs Hn. pows. unfold enc_time_body, siz_time_body.
  rewrite N.shiftr_div_pow2. change (2 ^ 34) with 17179869184.
  destruct (Z.leb_spec 0 s) as [H0|H0]; cbn [andb].
  - rewrite to_u8_nonneg by lia.
    destruct (Z.ltb_spec s 17179869184) as [H1|H1].
    + rewrite N.div_small by lia. cbn [N.eqb].
      rewrite u64_small by (rewrite N.shiftl_mul_pow2; change (2 ^ 34) with 17179869184; lia).
      rewrite lor_shiftl_add by (change (2 ^ 34) with 17179869184; lia). change (2 ^ 34) with 17179869184.
      rewrite land_high by lia.
      destruct (N.ltb_spec (n * 17179869184 + Z.to_N s) 4294967296) as [H2|H2].
      * assert (n = 0) by lia. subst n. destruct (Z.ltb_spec s 4294967296); [|lia].
        cbn [andb N.eqb]. rewrite N.mul_0_l, N.add_0_l, u32_small by lia. now rewrite len_be.
      * destruct (Z.ltb_spec s 4294967296) as [H3|H3]; destruct (N.eqb_spec n 0) as [H4|H4]; cbn [andb]; try lia;
          now rewrite len_be.
    + destruct (Z.ltb_spec s 4294967296); [lia|]. cbn [andb].
      destruct (N.eqb_spec (Z.to_N s / 17179869184) 0) as [H2|H2].
      * exfalso. apply N.div_small_iff in H2; lia.
      * rewrite u32_small by lia. rewrite two_to_u, to_u8_nonneg by lia. now rewrite len_app, !len_be.
  - rewrite to_u8_neg by lia.
    destruct (N.eqb_spec (Z.to_N (s + 18446744073709551616) / 17179869184) 0) as [H2|H2].
    + exfalso. apply N.div_small_iff in H2; lia.
    + rewrite u32_small by lia. rewrite two_to_u, to_u8_neg by lia. now rewrite len_app, !len_be.
Qed.
Lemma mp_time_writes : forall s n, fits_i 8 s -> n < 1000000000 -> writes (enc_time s n) (mp_time s n).
Proof.
  intros s n Hs Hn. unfold enc_time, mp_time. destruct (time_body s n Hs Hn) as [E _]. rewrite E. clear E.
  destruct ((0 <=? s)%Z && (s <? 4294967296)%Z && (n =? 0)).
  - rewrite len_be. apply (set_u1_then 214); [reflexivity|]. apply (set_u1_then 255); [reflexivity|]. apply set_bytes_writes.
  - destruct ((0 <=? s)%Z && (s <? 17179869184)%Z).
    + rewrite len_be. apply (set_u1_then 215); [reflexivity|]. apply (set_u1_then 255); [reflexivity|]. apply set_bytes_writes.
    + rewrite len_app, two_to_u, !len_be.
      apply (seqw_writes _ _ [199; 12]); [apply set_bytes_writes|]. apply (set_u1_then 255); [reflexivity|]. apply set_bytes_writes.
Qed.
Lemma mp_time_form : forall s n, fits_i 8 s -> n < 1000000000 -> shortest (fun bs t => time_form bs (fst t) (snd t)) (mp_time s n) (s, n).
Proof.
  intros s n Hs Hn. unfold mp_time, shortest. cbn [fst snd].
  destruct (Z.leb_spec 0 s) as [H0|H0]; cbn [andb].
  - destruct (Z.ltb_spec s 4294967296) as [H1|H1]; cbn [andb].
    + destruct (N.eqb_spec n 0) as [->|H2].
      * split; [apply tf_32; lia|]. intros bs' H'. inversion H'; subst; rewrite ?len_cons, ?len_app, ?two_to_u, ?len_be; lia.
      * destruct (Z.ltb_spec s 17179869184); [|lia]. cbn [andb]. split; [apply tf_64; lia|].
        intros bs' H'. inversion H'; subst; rewrite ?len_cons, ?len_app, ?two_to_u, ?len_be; lia.
    + destruct (Z.ltb_spec s 17179869184) as [H2|H2]; cbn [andb].
      * split; [apply tf_64; lia|].
        intros bs' H'. inversion H'; subst; rewrite ?len_cons, ?len_app, ?two_to_u, ?len_be; lia.
      * split; [now apply tf_96|]. intros bs' H'. inversion H'; subst; rewrite ?len_cons, ?len_app, ?two_to_u, ?len_be; lia.
  - split; [now apply tf_96|]. intros bs' H'. inversion H'; subst; rewrite ?len_cons, ?len_app, ?two_to_u, ?len_be; lia.
Qed.
Lemma time_unix_norm : forall s n, fits_i 8 s -> n < 1000000000 -> time_unix s n = (s, n).
Proof.
  intros s n Hs Hn. unfold time_unix. rewrite N.div_small, N.mod_small by lia.
  rewrite Z.add_0_r, of_to_u by exact Hs. reflexivity.
Qed.
Lemma discard1_at : forall b pre post, len (pre ++ b :: post) < 4294967296 ->
  discard 1 (at_ pre (b :: post)) = (Ok tt, at_ (pre ++ [b]) post).
Proof. intros b pre post H. apply (discard_parses 1 [b] eq_refl pre post H). Qed.
Lemma ext_time_code : forall p n h b t, parses (parse_ext_len p) h n -> len b = n ->
  parses (decode_time n) b t -> parses (ext_time p) (h ++ 255 :: b) t.
Proof.
  intros p n h b t Hp Hn Hd. apply bind_parses with n; [exact Hp|].
  apply (bind_parses _ _ _ _ [255] _ 255); [apply get_u1_parses|]. exact Hd.
Qed.
Lemma ext_time_parses : forall p bs t parse, is_string p = false -> parses (ext_time p) bs t ->
  parses (read_time parse) (p :: bs) t.
Proof.
  intros p bs t parse Hp H pre post Hl. unfold read_time, rbind at 1. cbn [app] in *.
  rewrite peek_at by exact Hl. rewrite Hp. rewrite discard1_at by exact Hl.
  rewrite H by (rewrite <- app_assoc; exact Hl). now rewrite <- app_assoc.
Qed.
Lemma time_form_parses : forall parse bs s n, time_form bs s n -> parses (read_time parse) bs (s, n).
Proof.
  intros parse bs s n H.
  destruct H as [s H|s n H Hn|s n H Hn]; apply ext_time_parses; try reflexivity.
  - apply (ext_time_code 214 4 []); [apply (ret_parses _ 4)|apply len_be|].
    apply bind_parses_nil with (be 4 (Z.to_N s)); [apply get_bytes_parses; apply len_be|].
    rewrite len_be. cbn [N.eqb N.of_nat Pos.of_succ_nat Pos.succ Pos.eqb].
    rewrite unbe_be_small by (pows; lia). rewrite Z2N.id by lia. rewrite time_unix_norm by (pows; lia). apply ret_parses.
  - apply (ext_time_code 215 8 []); [apply (ret_parses _ 8)|apply len_be|].
    apply bind_parses_nil with (be 8 (n * 17179869184 + Z.to_N s)); [apply get_bytes_parses; apply len_be|].
    rewrite len_be. cbn [N.eqb N.of_nat Pos.of_succ_nat Pos.succ Pos.eqb].
    rewrite unbe_be_small by (pows; lia).
    change 17179869183 with (N.ones 34). rewrite N.land_ones, N.shiftr_div_pow2. change (2 ^ 34) with 17179869184.
    rewrite N.div_add_l, (N.add_comm (n * 17179869184)), N.mod_add by lia.
    rewrite (N.div_small (Z.to_N s)), (N.mod_small (Z.to_N s)), N.add_0_r by lia.
    rewrite Z2N.id by lia. rewrite time_unix_norm by (pows; lia). apply ret_parses.
  - assert (L : len (be 4 n ++ two 8 s) = 12) by now rewrite len_app, two_to_u, !len_be.
    apply (ext_time_code 199 12 [12] (be 4 n ++ two 8 s)); [|exact L|].
    { change (parse_ext_len 199) with (read_uint 1). apply read_uint_parses; [|pows; lia].
      apply uint_form_parses. apply uf_fix. lia. }
    apply bind_parses_nil with (be 4 n ++ two 8 s); [now apply get_bytes_parses|].
    rewrite L. cbn [N.eqb Pos.eqb]. rewrite two_to_u.
    rewrite takeN_app_exact, dropN_app_exact by (now rewrite len_be).
    rewrite !unbe_be_small; [|pows; lia|apply to_u_lt]. rewrite of_to_u by exact H.
    rewrite time_unix_norm by assumption. apply ret_parses.
Qed.
