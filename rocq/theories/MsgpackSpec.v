(** Specification: the MessagePack format (github.com/msgpack/msgpack spec.md),
    written down independently of the code under /repo/msgpack. *)
From Coq Require Import Permutation.
From Verif Require Import Base MsgpackModel.

(** Two's complement, big endian, [k] bytes. *)
Definition two (k : nat) (z : Z) : bytes := be k (Z.to_N (z mod 256 ^ Z.of_nat k)).
Definition fits_i (k : nat) (z : Z) : Prop := (- (256 ^ Z.of_nat k) <= 2 * z < 256 ^ Z.of_nat k)%Z.
Definition fits_u (k : nat) (n : N) : Prop := n < 256 ^ N.of_nat k.

(** All encodings of a signed integer in the signed families. *)
Inductive int_form : bytes -> Z -> Prop :=
| if_pos : forall z, (0 <= z < 128)%Z -> int_form [Z.to_N z] z
| if_neg : forall z, (-32 <= z < 0)%Z -> int_form [Z.to_N (256 + z)] z
| if_8 : forall z, fits_i 1 z -> int_form (208 :: two 1 z) z
| if_16 : forall z, fits_i 2 z -> int_form (209 :: two 2 z) z
| if_32 : forall z, fits_i 4 z -> int_form (210 :: two 4 z) z
| if_64 : forall z, fits_i 8 z -> int_form (211 :: two 8 z) z.
(** ... of an unsigned integer in the unsigned families. *)
Inductive uint_form : bytes -> N -> Prop :=
| uf_fix : forall n, n < 128 -> uint_form [n] n
| uf_8 : forall n, fits_u 1 n -> uint_form (204 :: be 1 n) n
| uf_16 : forall n, fits_u 2 n -> uint_form (205 :: be 2 n) n
| uf_32 : forall n, fits_u 4 n -> uint_form (206 :: be 4 n) n
| uf_64 : forall n, fits_u 8 n -> uint_form (207 :: be 8 n) n.
(** Headers: strings, byte arrays, arrays and maps of a given length. *)
Inductive str_form : bytes -> N -> Prop :=
| sf_fix : forall n, n < 32 -> str_form [160 + n] n
| sf_8 : forall n, fits_u 1 n -> str_form (217 :: be 1 n) n
| sf_16 : forall n, fits_u 2 n -> str_form (218 :: be 2 n) n
| sf_32 : forall n, fits_u 4 n -> str_form (219 :: be 4 n) n.
Inductive bin_form : bytes -> N -> Prop :=
| bf_8 : forall n, fits_u 1 n -> bin_form (196 :: be 1 n) n
| bf_16 : forall n, fits_u 2 n -> bin_form (197 :: be 2 n) n
| bf_32 : forall n, fits_u 4 n -> bin_form (198 :: be 4 n) n.
Inductive arr_form : bytes -> N -> Prop :=
| af_fix : forall n, n < 16 -> arr_form [144 + n] n
| af_16 : forall n, fits_u 2 n -> arr_form (220 :: be 2 n) n
| af_32 : forall n, fits_u 4 n -> arr_form (221 :: be 4 n) n.
Inductive map_form : bytes -> N -> Prop :=
| mf_fix : forall n, n < 16 -> map_form [128 + n] n
| mf_16 : forall n, fits_u 2 n -> map_form (222 :: be 2 n) n
| mf_32 : forall n, fits_u 4 n -> map_form (223 :: be 4 n) n.
(** [bs] is as short as any encoding of [v]. *)
Definition shortest {A} (form : bytes -> A -> Prop) (bs : bytes) (v : A) : Prop :=
  form bs v /\ forall bs', form bs' v -> len bs <= len bs'.

(** The timestamp extension (type -1): 32, 64 or 96 bits. *)
Inductive time_form : bytes -> Z -> N -> Prop :=
| tf_32 : forall s, (0 <= s < 4294967296)%Z -> time_form (214 :: 255 :: be 4 (Z.to_N s)) s 0
| tf_64 : forall s n, (0 <= s < 17179869184)%Z -> n < 1000000000 ->
    time_form (215 :: 255 :: be 8 (n * 17179869184 + Z.to_N s)) s n
| tf_96 : forall s n, fits_i 8 s -> n < 1000000000 ->
    time_form (199 :: 12 :: 255 :: be 4 n ++ two 8 s) s n.

(** Well-formed MessagePack values; [x] admits the extension formats fixext 1,
    ext 8, ext 16 and ext 32 besides fixext 2, 4, 8 and 16. *)
Definition num_width (p k : N) : Prop :=
  In (p, k) [(202, 4); (203, 8); (204, 1); (205, 2); (206, 4); (207, 8); (208, 1); (209, 2); (210, 4); (211, 8)].
Definition fixext_width (p k : N) : Prop := In (p, k) [(213, 2); (214, 4); (215, 8); (216, 16)].
Inductive ext_form : bytes -> N -> Prop :=
| xf_1 : ext_form [212] 1
| xf_8 : forall n, fits_u 1 n -> ext_form (199 :: be 1 n) n
| xf_16 : forall n, fits_u 2 n -> ext_form (200 :: be 2 n) n
| xf_32 : forall n, fits_u 4 n -> ext_form (201 :: be 4 n) n.
Inductive mp_value (x : bool) : bytes -> Prop :=
| v_byte : forall b, b < 128 \/ 224 <= b < 256 \/ b = 192 \/ b = 194 \/ b = 195 -> mp_value x [b]
| v_num : forall p k body, num_width p k -> len body = k -> mp_value x (p :: body)
| v_str : forall h s, str_form h (len s) -> mp_value x (h ++ s)
| v_bin : forall h s, bin_form h (len s) -> mp_value x (h ++ s)
| v_arr : forall h n bs, arr_form h n -> mp_values x n bs -> mp_value x (h ++ bs)
| v_map : forall h n bs, map_form h n -> mp_values x (2 * n) bs -> mp_value x (h ++ bs)
| v_fixext : forall p k body, fixext_width p k -> len body = 1 + k -> mp_value x (p :: body)
| v_ext : forall h n body, x = true -> ext_form h n -> len body = 1 + n -> mp_value x (h ++ body)
with mp_values (x : bool) : N -> bytes -> Prop :=
| vs_nil : mp_values x 0 []
| vs_cons : forall n a b, mp_value x a -> mp_values x n b -> mp_values x (1 + n) (a ++ b).

(** What a dynamic value looks like after it went through the wire: integers
    come back in the Go type of the shortest MessagePack format for their value. *)
Definition norm_int (z : Z) : any :=
  if ((-32 <=? z) && (z <? 128))%Z then AInt 8 z
  else if ((-128 <=? z) && (z <? 128))%Z then AInt 1 z
  else if ((-32768 <=? z) && (z <? 32768))%Z then AInt 2 z
  else if ((-2147483648 <=? z) && (z <? 2147483648))%Z then AInt 4 z
  else AInt 8 z.
Definition norm_uint (n : N) : any :=
  if n <? 128 then AInt 8 (Z.of_N n)
  else if n <? 256 then AUint 1 n
  else if n <? 65536 then AUint 2 n
  else if n <? 4294967296 then AUint 4 n
  else AUint 8 n.
Fixpoint norm (a : any) : any :=
  match a with
  | AInt _ z => norm_int z
  | AUint _ n => norm_uint n
  | AList l => AList (map norm l)
  | AMap l => AMap (map (fun kv => (norm (fst kv), norm (snd kv))) l)
  | _ => a
  end.
(** No two of the keys are equal as Go map keys. *)
Fixpoint distinct_keys (l : list any) : Prop :=
  match l with
  | [] => True
  | k :: l' => Forall (fun k' => key_eq k k' = false) l' /\ distinct_keys l'
  end.
(** Trees of bools, numbers, strings, byte strings, lists and maps; map keys
    are not composite and stay different on the wire. *)
Inductive plain : any -> Prop :=
| pl_bool : forall b, plain (ABool b)
| pl_int : forall w z, fits_i 8 z -> plain (AInt w z)
| pl_uint : forall w n, fits_u 8 n -> plain (AUint w n)
| pl_f32 : forall x, fits_u 4 x -> plain (AF32 x)
| pl_f64 : forall x, fits_u 8 x -> plain (AF64 x)
| pl_str : forall s, plain (AStr s)
| pl_bin : forall s, plain (ABin s)
| pl_list : forall l, Forall plain l -> plain (AList l)
| pl_map : forall l, Forall (fun kv => plain (fst kv) /\ plain (snd kv)) l ->
    Forall (fun kv => hashable (fst kv) = true) l -> distinct_keys (map (fun kv => norm (fst kv)) l) ->
    plain (AMap l).
(** Equal up to the order in which maps are iterated. *)
Inductive reorder : any -> any -> Prop :=
| ro_same : forall a, reorder a a
| ro_list : forall l l', Forall2 reorder l l' -> reorder (AList l) (AList l')
| ro_map : forall l m l', Permutation l m ->
    Forall2 (fun x y => reorder (fst x) (fst y) /\ reorder (snd x) (snd y)) m l' -> reorder (AMap l) (AMap l')
| ro_codec : forall l l', Forall2 reorder_call l l' -> reorder (ACodec l) (ACodec l')
with reorder_call : wcall -> wcall -> Prop :=
| rc_prim : forall p, reorder_call (inl p) (inl p)
| rc_any : forall a b, reorder a b -> reorder_call (inr a) (inr b).
