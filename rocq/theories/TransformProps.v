(** Property C85: transforms (/repo/transform/transform.go). *)
From Coq Require Import Permutation.
From Verif Require Import Base BaseFacts MsgpackModel MsgpackSpec MsgpackProofs MsgpackValues MsgpackAny RecordModel RecordProofs MsgpackProps
  InvokeModel InvokeProps TransformModel.
Local Ltac Zify.zify_post_hook ::= Z.div_mod_to_equations.
Local Notation lim := 4294967296 (only parsing).

(** Every value in [P] is encoded, and decoded from the payload, also when more
    bytes follow. *)
Definition faithful {T} (t : transform T) (P : T -> Prop) : Prop := forall v, P v -> exists bs,
  t_encode t v = Ok bs /\ forall post, len (bs ++ post) < lim -> t_decode t (bs ++ post) = Ok v.

Lemma read_one_parses : forall A (d : rd A) bs v post, parses d bs v -> len (bs ++ post) < lim ->
  read_one d (bs ++ post) = Ok v.
Proof. intros A d bs v post P L. unfold read_one. now rewrite (parse_start _ _ _ _ _ P L). Qed.
(** A typed write and a read that understands it. *)
Lemma one_faithful : forall A (d : rd A) p v, wf_prim p -> len (mp_prim p) + surplus_prim p < lim -> parses d (mp_prim p) v ->
  exists bs, write_one p = Ok bs /\ forall post, len (bs ++ post) < lim -> read_one d (bs ++ post) = Ok v.
Proof.
  intros A d p v W L P. unfold write_one.
  destruct (to_bytes_spec [inl p] [inl p]) as [E _].
  - repeat constructor. exact W.
  - repeat constructor. exact W.
  - repeat constructor.
  - unfold mp_calls, surplus_calls. cbn. rewrite app_nil_r. lia.
  - eexists. split; [exact E|]. intros post Lp. unfold mp_calls in *. cbn [map concat mp_call app] in *. rewrite app_nil_r, <- app_assoc in *.
    now apply read_one_parses.
Qed.
Lemma faithful_bind : forall A B (d : rd A) (k : A -> res B) p v w, wf_prim p -> len (mp_prim p) + surplus_prim p < lim ->
  parses d (mp_prim p) v -> k v = Ok w ->
  exists bs, write_one p = Ok bs /\ forall post, len (bs ++ post) < lim -> (x <- read_one d (bs ++ post) ;; k x) = Ok w.
Proof.
  intros A B d k p v w W L P K. destruct (one_faithful A d p v W L P) as (bs & E & D). exists bs. split; [exact E|].
  intros post Lp. now rewrite (D post Lp).
Qed.
Lemma int_small : forall z, len (mp_prim (PInt z)) + surplus_prim (PInt z) < lim.
Proof.
  intros z. cbn [mp_prim surplus_prim]. rewrite mp_int_len. unfold siz_int.
  repeat match goal with |- context [if ?c then _ else _] => destruct c end; reflexivity.
Qed.
Lemma uint_small : forall n, len (mp_prim (PUint n)) + surplus_prim (PUint n) < lim.
Proof.
  intros n. cbn [mp_prim surplus_prim]. rewrite mp_uint_len. unfold siz_uint.
  repeat match goal with |- context [if ?c then _ else _] => destruct c end; reflexivity.
Qed.
Lemma mp_int_parses : forall z, fits_i 8 z -> parses read_int64 (mp_int z) z.
Proof. intros z H. apply int_form_parses, mp_int_shortest, H. Qed.
Lemma mp_uint_parses : forall n, fits_u 8 n -> parses read_uint64 (mp_uint n) n.
Proof. intros n H. apply uint_form_parses, mp_uint_shortest, H. Qed.
Lemma str_small : forall s, len s + 5 < lim -> len (mp_prim (PStr s)) + surplus_prim (PStr s) < lim.
Proof.
  intros s H. cbn [mp_prim surplus_prim]. unfold mp_str. rewrite len_app, mp_str_len_siz. unfold siz_str_len.
  repeat match goal with |- context [if ?c then _ else _] => destruct c end; lia.
Qed.
Lemma mp_str_parses : forall s, len s < lim -> parses read_str (mp_str s) s.
Proof. intros s H. apply str_parses, mp_str_len_shortest. pows. lia. Qed.
Lemma bin_small : forall s, len s + 5 < lim -> len (mp_prim (PBin s)) + surplus_prim (PBin s) < lim.
Proof.
  intros s H. cbn [mp_prim surplus_prim]. unfold mp_bin, mp_bin_len. rewrite len_app.
  repeat match goal with |- context [if ?c then _ else _] => destruct c eqn:? end; lens; lia.
Qed.
Lemma mp_bin_parses : forall s, len s < lim -> parses read_bin (mp_bin s) s.
Proof. intros s H. apply bin_parses, mp_bin_len_shortest. pows. lia. Qed.
Lemma fits_i_mono : forall k z, (k <= 8)%nat -> fits_i k z -> fits_i 8 z.
Proof.
  intros k z K. unfold fits_i. assert (256 ^ Z.of_nat k <= 256 ^ Z.of_nat 8)%Z by (apply Z.pow_le_mono_r; lia). lia.
Qed.
Lemma fits_u_mono : forall k n, (k <= 8)%nat -> fits_u k n -> fits_u 8 n.
Proof.
  intros k n K. unfold fits_u. assert (256 ^ N.of_nat k <= 256 ^ N.of_nat 8) by (apply N.pow_le_mono_r; lia). lia.
Qed.

(** ** C85 *)
(** All values of the Go type; strings and byte arrays up to about 4 GiB.
    [int] and [uint] are taken on a machine where they have [w] bytes. *)
Theorem C85_scalars :
  faithful tr_string (fun s => len s + 5 < lim) /\ faithful tr_bytes (fun s => len s + 5 < lim) /\
  faithful tr_bool (fun _ => True) /\ faithful tr_void (fun _ => True) /\
  faithful tr_int64 (fits_i 8) /\ faithful tr_uint64 (fits_u 8) /\
  (forall k, (k <= 8)%nat -> faithful (tr_intk k) (fits_i k) /\ faithful (tr_uintk k) (fits_u k)) /\
  (forall w, (w <= 8)%nat -> faithful (tr_int w) (fits_i w) /\ faithful (tr_uint w) (fits_u w)) /\
  faithful tr_f64 (fits_u 8) /\ (forall narrow, faithful (tr_f32 narrow) (fits_u 4)).
Proof.
  split. { intros s H. apply one_faithful; [cbn [wf_prim]; lia|now apply str_small|apply mp_str_parses; lia]. }
  split. { intros s H. apply one_faithful; [cbn [wf_prim]; lia|now apply bin_small|apply mp_bin_parses; lia]. }
  split. { intros b _. apply one_faithful; [exact I|destruct b; reflexivity|apply bool_parses]. }
  split. { intros [] _. exists []. split; [reflexivity|]. reflexivity. }
  split. { intros z H. apply one_faithful; [exact H|apply int_small|now apply mp_int_parses]. }
  split. { intros n H. apply one_faithful; [exact H|apply uint_small|now apply mp_uint_parses]. }
  split.
  { intros k K. split.
    - intros z H. pose proof (fits_i_mono k z K H) as H8. apply one_faithful; [exact H8|apply int_small|].
      apply read_int_parses; [apply mp_int_shortest, H8|exact H].
    - intros n H. pose proof (fits_u_mono k n K H) as H8. apply one_faithful; [exact H8|apply uint_small|].
      apply read_uint_parses; [now apply mp_uint_parses|exact H]. }
  split.
  { intros w K. split.
    - intros z H. pose proof (fits_i_mono w z K H) as H8.
      apply (faithful_bind _ _ read_int64 (fun v => Ok (cast_i w v)) (PInt z) z z); [exact H8|apply int_small|now apply mp_int_parses|].
      unfold cast_i. now rewrite of_to_u.
    - intros n H. pose proof (fits_u_mono w n K H) as H8.
      apply (faithful_bind _ _ read_uint64 (fun v => Ok (cast_u w v)) (PUint n) n n); [exact H8|apply uint_small|now apply mp_uint_parses|].
      unfold cast_u. now rewrite N.mod_small. }
  split. { intros x H. apply one_faithful; [exact H|cbn [mp_prim surplus_prim]; lens; lia|now apply f64_parses]. }
  intros nw x H. apply one_faithful; [exact H|cbn [mp_prim surplus_prim]; lens; lia|now apply f32_parses].
Qed.
(** An int or uint of the host that does not fit 32 bits is another number in
    WebAssembly, without an error; the transforms of a fixed width report it. *)
Theorem C85_int_is_cut_refuted :
  (forall z, fits_i 8 z -> ~ fits_i 4 z -> exists bs z',
    t_encode (tr_int 8) z = Ok bs /\ t_decode (tr_int 4) bs = Ok z' /\ z' <> z /\
    t_decode (tr_intk 4) bs = Err "interger overflow") /\
  (forall n, fits_u 8 n -> ~ fits_u 4 n -> exists bs n',
    t_encode (tr_uint 8) n = Ok bs /\ t_decode (tr_uint 4) bs = Ok n' /\ n' <> n /\
    t_decode (tr_uintk 4) bs = Err "interger overflow").
Proof.
  split.
  - intros z H H4. exists (mp_int z), (cast_i 4 z).
    assert (L : len (mp_int z ++ []) < lim) by (rewrite app_nil_r; pose proof (int_small z) as L; cbn [mp_prim surplus_prim] in L; lia).
    split; [|split; [|split]].
    + cbn [t_encode tr_int write_one]. apply single; [exact H|reflexivity|]. pose proof (int_small z) as L'. cbn [surplus_prim] in L'. lia.
    + cbn [t_decode tr_int]. rewrite <- (app_nil_r (mp_int z)) at 1. now rewrite (read_one_parses _ _ _ z [] (mp_int_parses z H) L).
    + intros E. apply H4. rewrite <- E. unfold cast_i, of_u, to_u, fits_i.
      change (256 ^ Z.of_nat 4)%Z with 4294967296%Z. cbv zeta. rewrite Z2N.id by lia. destruct (Z.ltb_spec (2 * (z mod 4294967296)) 4294967296); lia.
    + cbn [t_decode tr_intk]. unfold read_one. rewrite <- (app_nil_r (mp_int z)).
      destruct (read_int_rejects 4 _ z (proj1 (mp_int_shortest z H)) H4 [] [] L) as (r & E). cbn [app] in E. rewrite at_start in E. now rewrite E.
  - intros n H H4. exists (mp_uint n), (cast_u 4 n).
    assert (L : len (mp_uint n ++ []) < lim) by (rewrite app_nil_r; pose proof (uint_small n) as L; cbn [mp_prim surplus_prim] in L; lia).
    split; [|split; [|split]].
    + cbn [t_encode tr_uint write_one]. apply single; [exact H|reflexivity|]. pose proof (uint_small n) as L'. cbn [surplus_prim] in L'. lia.
    + cbn [t_decode tr_uint]. rewrite <- (app_nil_r (mp_uint n)) at 1. now rewrite (read_one_parses _ _ _ n [] (mp_uint_parses n H) L).
    + intros E. apply H4. rewrite <- E. unfold cast_u, fits_u. apply N.mod_lt. discriminate.
    + cbn [t_decode tr_uintk]. unfold read_one. rewrite <- (app_nil_r (mp_uint n)).
      destruct (read_uint_rejects 4 _ n (mp_uint_parses n H) H4 [] [] L) as (r & E). cbn [app] in E. rewrite at_start in E. now rewrite E.
Qed.
(** Values that travel as text, for any formatter that its parser undoes. *)
Theorem C85_text : forall T (parse : bytes -> res T) (format : T -> bytes),
  faithful (tr_to_string parse format) (fun v => len (format v) + 5 < lim /\ parse (format v) = Ok v).
Proof.
  intros T parse format v [L P].
  apply (faithful_bind _ _ read_str parse (PStr (format v)) (format v) v); [cbn [wf_prim]; lia|now apply str_small|apply mp_str_parses; lia|exact P].
Qed.
Lemma mp_str_head : forall s, exists b rest, mp_str s = b :: rest /\ is_string b = true.
Proof.
  intros s. unfold mp_str, mp_str_len.
  destruct (N.ltb_spec (len s) 32) as [H|H].
  - eexists. eexists. split; [reflexivity|].
    assert (A : forallb (fun n => is_string (160 + N.of_nat n)) (seq 0 32) = true) by (vm_compute; reflexivity).
    rewrite forallb_forall in A. specialize (A (N.to_nat (len s))). rewrite N2Nat.id in A. apply A. apply in_seq. lia.
  - destruct (len s <=? 255); [eexists; eexists; split; reflexivity|].
    destruct (len s <=? 65535); eexists; eexists; split; reflexivity.
Qed.
(** A time encoded by the transform is read by ReadTime; one written by
    WriteTime is not read by the transform. *)
Theorem C85_time_one_way_refuted : forall (parse : bytes -> res (Z * N)) format s n, wf_time s n ->
  (len (format (s, n)) + 5 < lim -> parse (format (s, n)) = Ok (s, n) -> exists bs,
    t_encode (tr_time parse format) (s, n) = Ok bs /\ read_one (read_time parse) bs = Ok (s, n)) /\
  exists bs, to_bytes [inl (PTime s n)] [inl (PTime s n)] = Ok bs /\ read_one (read_time parse) bs = Ok (s, n) /\
    t_decode (tr_time parse format) bs = Err "bad prefix for string length".
Proof.
  intros parse format s n [Hs Hn]. split.
  - intros L P. exists (mp_str (format (s, n))). split.
    + apply (single (PStr (format (s, n)))); [cbn [wf_prim]; lia|reflexivity|]. pose proof (str_small _ L) as L'. cbn [surplus_prim] in L'. lia.
    + pose proof (str_small _ L) as L'. cbn [mp_prim surplus_prim] in L'.
      pose proof (mp_str_parses (format (s, n)) ltac:(lia) [] []) as R. cbn [app] in R. rewrite app_nil_r in R. specialize (R ltac:(unfold bytes in *; lia)).
      unfold read_one, read_time, rbind. destruct (mp_str_head (format (s, n))) as (b & rest & E & B). rewrite E in *.
      change (new_reader (b :: rest)) with (at_ [] (b :: rest)). rewrite (peek_at [] b rest) by (cbn [app]; unfold bytes in *; lia).
      cbn iota beta. rewrite B, R. exact P.
  - destruct (C40_time_round_trip parse s n Hs Hn) as (bs & [F _] & _ & E & R). exists bs. split; [exact E|].
    assert (L : len (bs ++ []) < lim).
    { rewrite app_nil_r. cbn [fst snd] in F. destruct F; lens; lia. }
    split.
    + specialize (R [] L). rewrite app_nil_r in R. unfold read_one. now rewrite R.
    + cbn [t_decode tr_time tr_to_string]. unfold read_one, read_str, read_str_len, rbind. rewrite app_nil_r in L.
      cbn [fst snd] in F. destruct F; cbn [app] in L |- *;
        match goal with |- context [new_reader (?b :: ?t)] =>
          change (new_reader (b :: t)) with (at_ [] ([b] ++ t)); rewrite (get_u1_parses b [] t L); reflexivity end.
Qed.
(** What [valF] must do: the same calls for both passes up to the iteration of
    maps, on values of their Go types, without byte arrays of 255 bytes (C42),
    and a reader that understands them. *)
Definition element {V} (vs ve : V -> list wcall) (d : rd V) (v : V) : Prop :=
  Forall wf_call (vs v) /\ Forall wf_call (ve v) /\ Forall2 reorder_call (vs v) (ve v) /\ Forall fair_call (ve v) /\
  parses d (mp_calls (ve v)) v.
Lemma flat_Forall : forall A B (P : B -> Prop) (f : A -> list B) l, Forall (fun x => Forall P (f x)) l -> Forall P (flat_map f l).
Proof. induction 1; cbn [flat_map]; [constructor|]. apply Forall_app. now split. Qed.
Lemma flat_Forall2 : forall A B C (R : B -> C -> Prop) (f : A -> list B) (g : A -> list C) l,
  Forall (fun x => Forall2 R (f x) (g x)) l -> Forall2 R (flat_map f l) (flat_map g l).
Proof. induction 1; cbn [flat_map]; [constructor|]. now apply Forall2_app. Qed.
Lemma mp_calls_flat : forall A (f : A -> list wcall) l, mp_calls (flat_map f l) = concat (map (fun x => mp_calls (f x)) l).
Proof.
  intros A f l. unfold mp_calls. induction l as [|x l IH]; cbn [flat_map map concat]; [reflexivity|].
  rewrite map_app, concat_app. now rewrite IH.
Qed.
Lemma sized_bytes : forall l l', Forall wf_call l -> Forall wf_call l' -> Forall2 reorder_call l l' -> Forall fair_call l' ->
  len (mp_calls l') < lim -> to_bytes_checked l l' = Ok (mp_calls l').
Proof.
  intros l l' W W' R F L.
  assert (Z : surplus_calls l' = 0) by (unfold surplus_calls; apply sum_zero; revert F; apply Forall_impl, fair_call_surplus).
  destruct (to_bytes_spec l l' W W' R) as [_ E]; [rewrite Z; lia|]. rewrite E, Z. cbn [N.to_nat repeat]. now rewrite app_nil_r.
Qed.
Lemma slice_wire : forall V (v : V -> list wcall) l, len l < lim ->
  mp_calls (slice_calls v l) = mp_arr (len l) ++ concat (map (fun x => mp_calls (v x)) l).
Proof.
  intros V v l L. rewrite <- mp_calls_flat. unfold slice_calls, mp_calls. cbn [map concat mp_call mp_prim]. now rewrite u32_small.
Qed.
Lemma mp_calls_app : forall a b, mp_calls (a ++ b) = mp_calls a ++ mp_calls b.
Proof. intros. unfold mp_calls. now rewrite map_app, concat_app. Qed.
Lemma map_wire : forall K V (k : K -> list wcall) (v : V -> list wcall) l, len l < lim ->
  mp_calls (map_calls k v l) = mp_map (len l) ++ concat (map (fun x => mp_calls (k (fst x)) ++ mp_calls (v (snd x))) l).
Proof.
  intros K V k v l L.
  transitivity (mp_map (len l) ++ mp_calls (flat_map (fun kv => k (fst kv) ++ v (snd kv)) l)).
  { unfold map_calls, mp_calls. cbn [map concat mp_call mp_prim]. now rewrite u32_small. }
  rewrite mp_calls_flat. f_equal. f_equal. apply map_ext. intros x. apply mp_calls_app.
Qed.
Theorem C85_slice : forall V (vs ve : V -> list wcall) d l, len l < lim -> Forall (element vs ve d) l ->
  len (mp_calls (slice_calls ve l)) < lim -> exists bs, slice_encode vs ve l = Ok bs /\
  forall post, len (bs ++ post) < lim -> exists f0, forall f, (f0 <= f)%nat -> slice_decode d f (bs ++ post) = Some (Ok l).
Proof.
  intros V vs ve d l L H Lb. exists (mp_calls (slice_calls ve l)).
  assert (W : forall (x : V -> list wcall), Forall (fun v => Forall wf_call (x v)) l -> Forall wf_call (slice_calls x l)).
  { intros x Hx. unfold slice_calls. constructor; [|now apply flat_Forall]. cbn [wf_call wf_prim]. unfold u32, fits_u. pows. lia. }
  split.
  - apply sized_bytes; [| | | |exact Lb].
    + apply W. revert H. apply Forall_impl. unfold element. tauto.
    + apply W. revert H. apply Forall_impl. unfold element. tauto.
    + constructor; [constructor|]. apply flat_Forall2. revert H. apply Forall_impl. unfold element. tauto.
    + constructor; [exact I|]. apply flat_Forall. revert H. apply Forall_impl. unfold element. tauto.
  - intros post Lp. exists (S (List.length l)). intros f Hf. unfold slice_decode. rewrite slice_wire in * by exact L.
    rewrite <- at_start. rewrite (slice_parses V V d (fun x => mp_calls (ve x)) (fun x => x) l L); [now rewrite map_id| |lia|exact Lp].
    revert H. apply Forall_impl. unfold element. tauto.
Qed.
Lemma sumN_perm : forall A (f : A -> N) l l', Permutation l l' -> sumN (map f l) = sumN (map f l').
Proof.
  induction 1; cbn [map sumN fold_right]; try reflexivity.
  - fold (sumN (map f l)). fold (sumN (map f l')). now rewrite IHPermutation.
  - fold (sumN (map f l)). lia.
  - congruence.
Qed.
Lemma perm_len_calls : forall l l', Permutation l l' -> len (mp_calls l) = len (mp_calls l').
Proof. intros l l' P. unfold mp_calls. rewrite !len_concat, !map_map. now apply sumN_perm. Qed.
Lemma perm_sized : forall l l', Permutation l l' -> Forall wf_call l -> siz_calls l 0 = siz_calls l' 0.
Proof.
  intros l l' P W. assert (W' : Forall wf_call l') by (rewrite Forall_forall in *; intros c Hc; apply W; now apply Permutation_in with l'; [apply Permutation_sym|]).
  rewrite !siz_calls_spec by assumption. rewrite (perm_len_calls _ _ P). unfold surplus_calls. now rewrite (sumN_perm _ surplus_call _ _ P).
Qed.
(** The entries in any order, twice: [m] for the sizer, [m'] for the encoder. *)
Theorem C85_map : forall K V (ks ke : K -> list wcall) (vs ve : V -> list wcall) dk dv m m', len m < lim -> Permutation m m' ->
  Forall (fun kv => element ks ke dk (fst kv) /\ element vs ve dv (snd kv)) m ->
  len (mp_calls (map_calls ke ve m)) < lim -> exists bs, map_encode ks ke vs ve m m' = Ok bs /\
  forall post, len (bs ++ post) < lim -> exists f0 r, Permutation m r /\
  forall f, (f0 <= f)%nat -> map_decode dk dv f (bs ++ post) = Some (Ok r).
Proof.
  intros K V ks ke vs ve dk dv m m' L P H Lb.
  assert (Lm : len m' = len m) by (apply N2Nat.inj; rewrite !len_length; symmetry; now apply Permutation_length).
  assert (H' : Forall (fun kv => element ks ke dk (fst kv) /\ element vs ve dv (snd kv)) m').
  { rewrite Forall_forall in *. intros kv Hkv. apply H. now apply Permutation_in with m'; [apply Permutation_sym|]. }
  assert (PC : forall (k : K -> list wcall) (v : V -> list wcall), Permutation (map_calls k v m) (map_calls k v m')).
  { intros k v. unfold map_calls. rewrite Lm. constructor. now apply Permutation_flat_map. }
  assert (W : forall (k : K -> list wcall) (v : V -> list wcall), Forall (fun kv => Forall wf_call (k (fst kv)) /\ Forall wf_call (v (snd kv))) m' ->
    Forall wf_call (map_calls k v m')).
  { intros k v Hx. unfold map_calls. constructor.
    - cbn [wf_call wf_prim]. unfold u32, fits_u. pows. lia.
    - apply flat_Forall. revert Hx. apply Forall_impl. intros kv Hkv. now apply Forall_app. }
  assert (Ws : Forall wf_call (map_calls ks vs m')) by (apply W; revert H'; apply Forall_impl; unfold element; tauto).
  assert (Lb' : len (mp_calls (map_calls ke ve m')) < lim) by (rewrite <- (perm_len_calls _ _ (PC ke ve)); exact Lb).
  exists (mp_calls (map_calls ke ve m')). split.
  - unfold map_encode. transitivity (to_bytes_checked (map_calls ks vs m') (map_calls ke ve m')).
    { unfold to_bytes_checked. now rewrite <- (perm_sized _ _ (Permutation_sym (PC ks vs)) Ws). }
    apply sized_bytes; [exact Ws| | | |exact Lb'].
    + apply W. revert H'. apply Forall_impl. unfold element. tauto.
    + constructor; [constructor|]. apply flat_Forall2. revert H'. apply Forall_impl. unfold element. intros kv Hkv. apply Forall2_app; tauto.
    + constructor; [exact I|]. apply flat_Forall. revert H'. apply Forall_impl. unfold element. intros kv Hkv. apply Forall_app; tauto.
  - intros post Lp. exists (S (List.length m')), m'. split; [exact P|]. intros f Hf. unfold map_decode. rewrite map_wire in Lp |- * by lia.
    rewrite <- at_start. rewrite (map_parses K V dk dv (fun k => mp_calls (ke k)) (fun v => mp_calls (ve v)) m'); [reflexivity|lia| |lia|exact Lp].
    revert H'. apply Forall_impl. unfold element. tauto.
Qed.
(** The payload of an instance leads back to it until it is removed, as long as
    the allocator does not return the address of a live object. *)
Theorem C85_interface : forall c1 a x c2, fits_u 8 a -> (forall y, ~ In (IPut a y) c2) -> ~ In (IRemove a) c2 ->
  exists bs h, interface_encode c1 a x = (c1 ++ [IPut a x], Ok bs) /\ t_decode tr_uint64 bs = Ok h /\
  inst_last ((c1 ++ [IPut a x]) ++ c2) (IGet h) = RInst (Some x).
Proof.
  intros c1 a x c2 A Hp Hr. exists (mp_uint a), a. split; [|split].
  - unfold interface_encode. cbn [inst_step snd]. f_equal. apply single; [exact A|reflexivity|].
    pose proof (uint_small a) as L. cbn [surplus_prim] in L. lia.
  - cbn [t_decode tr_uint64]. rewrite <- (app_nil_r (mp_uint a)). apply read_one_parses; [now apply mp_uint_parses|].
    rewrite app_nil_r. pose proof (uint_small a) as L. cbn [surplus_prim mp_prim] in L. lia.
  - rewrite <- app_assoc. cbn [app]. apply (C32_handle_until_removed c1 a x c2 Hp Hr).
Qed.
Example C85_example :
  t_encode tr_bytes (repeat 7 255) = Ok ((196 :: 255 :: repeat 7 255) ++ [0]) /\
  t_decode tr_bytes ((196 :: 255 :: repeat 7 255) ++ [0]) = Ok (repeat 7 255) /\
  (* 4294967301 on the host is 5 in WebAssembly *)
  t_encode (tr_int 8) 4294967301%Z = Ok [211; 0; 0; 0; 1; 0; 0; 0; 5] /\
  t_decode (tr_int 4) [211; 0; 0; 0; 1; 0; 0; 0; 5] = Ok 5%Z /\
  (fits_i 8 4294967301%Z /\ ~ fits_i 4 4294967301%Z) /\
  (* a map from strings to int32, sized and written in different orders *)
  (let e := fun s : bytes => [inl (PStr s)] : list wcall in let n := fun z => [inl (PInt z)] : list wcall in
   let m := [([97], 300%Z); ([98; 99], 5%Z)] in
   Forall (fun kv => element e e read_str (fst kv) /\ element n n (read_int 4) (snd kv)) m /\
   map_encode e e n n m (rev m) = Ok [130; 162; 98; 99; 5; 161; 97; 209; 1; 44] /\
   map_decode read_str (read_int 4) 9 [130; 162; 98; 99; 5; 161; 97; 209; 1; 44] = Some (Ok (rev m))) /\
  (let e := fun s : bytes => [inl (PStr s)] : list wcall in
   Forall (element e e read_str) [[97]; []] /\ slice_encode e e [[97]; []] = Ok [146; 161; 97; 160] /\
   slice_decode read_str 9 [146; 161; 97; 160; 1] = Some (Ok [[97]; []])) /\
  interface_encode [IPut 64 1; IRemove 64] 4660 7 = ([IPut 64 1; IRemove 64; IPut 4660 7], Ok [205; 18; 52]).
Proof.
  assert (S1 : forall s, len s + 5 < lim -> element (fun s : bytes => [inl (PStr s)]) (fun s => [inl (PStr s)]) read_str s).
  { intros s H. unfold element. repeat split; try (repeat constructor; cbn [wf_call wf_prim]; lia).
    unfold mp_calls. cbn [map concat mp_call mp_prim]. rewrite app_nil_r. apply mp_str_parses. lia. }
  assert (S2 : forall z, fits_i 4 z -> element (fun z => [inl (PInt z)]) (fun z => [inl (PInt z)]) (read_int 4) z).
  { intros z H. assert (H8 : fits_i 8 z) by (apply (fits_i_mono 4); [lia|exact H]).
    unfold element. split; [constructor; [exact H8|constructor]|]. split; [constructor; [exact H8|constructor]|].
    split; [repeat constructor|]. split; [constructor; [exact I|constructor]|].
    unfold mp_calls. cbn [map concat mp_call mp_prim]. rewrite app_nil_r. apply read_int_parses; [apply mp_int_shortest, H8|exact H]. }
  split; [vm_compute; reflexivity|]. split; [vm_compute; reflexivity|]. split; [vm_compute; reflexivity|]. split; [vm_compute; reflexivity|].
  split; [unfold fits_i; cbn; lia|]. split; [|split].
  - cbv zeta. split; [|split; vm_compute; reflexivity].
    repeat (apply Forall_cons; [split; cbn [fst snd]; [apply S1; vm_compute; reflexivity | apply S2; unfold fits_i; cbn; lia]|]). constructor.
  - cbv zeta. split; [|split; vm_compute; reflexivity]. repeat (apply Forall_cons; [apply S1; vm_compute; reflexivity|]). constructor.
  - vm_compute. reflexivity.
Qed.
Print Assumptions C85_scalars.
Print Assumptions C85_int_is_cut_refuted.
Print Assumptions C85_text.
Print Assumptions C85_time_one_way_refuted.
Print Assumptions C85_slice.
Print Assumptions C85_map.
Print Assumptions C85_interface.
