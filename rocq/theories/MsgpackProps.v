(** Properties C36-C48, C75, C76: MessagePack (/repo/msgpack) and record codecs. *)
From Coq Require Import Permutation.
From Verif Require Import Base BaseFacts MsgpackModel MsgpackSpec MsgpackProofs MsgpackValues MsgpackAny MsgpackSkip MsgpackBounds RecordModel RecordProofs.
Local Ltac Zify.zify_post_hook ::= Z.div_mod_to_equations.
Local Notation lim := 4294967296 (only parsing).

(** A single typed write through codec.go. *)
Lemma single : forall p, wf_prim p -> surplus_prim p = 0 -> len (mp_prim p) < lim ->
  to_bytes [inl p] [inl p] = Ok (mp_prim p).
Proof.
  intros p W S L.
  destruct (to_bytes_spec [inl p] [inl p]) as [E _].
  - repeat constructor. exact W.
  - repeat constructor. exact W.
  - repeat constructor.
  - unfold mp_calls, surplus_calls. cbn. rewrite S, app_nil_r. lia.
  - rewrite E. unfold mp_calls, surplus_calls. cbn. rewrite S, !app_nil_r. reflexivity.
Qed.
Lemma at_start : forall bs post, at_ [] (bs ++ post) = new_reader (bs ++ post).
Proof. reflexivity. Qed.
Lemma parse_start : forall A (d : rd A) bs v post, parses d bs v -> len (bs ++ post) < lim ->
  d (new_reader (bs ++ post)) = (Ok v, at_ bs post).
Proof. intros A d bs v post H L. rewrite <- at_start. now apply H. Qed.

(** ** C36: signed integers *)
Theorem C36_int_round_trip : forall z, fits_i 8 z -> exists bs,
  shortest int_form bs z /\ writes (enc_int z) bs /\
  to_bytes [inl (PInt z)] [inl (PInt z)] = Ok bs /\
  forall post, len (bs ++ post) < lim ->
    read_int64 (new_reader (bs ++ post)) = (Ok z, at_ bs post) /\
    (forall k, fits_i k z -> read_int k (new_reader (bs ++ post)) = (Ok z, at_ bs post)) /\
    (forall k, ~ fits_i k z -> exists r, read_int k (new_reader (bs ++ post)) = (Err "interger overflow", r)).
Proof.
  intros z H. pose proof (mp_int_shortest z H) as S. exists (mp_int z). split; [exact S|].
  split; [apply mp_int_writes|]. split.
  { apply (single (PInt z)); [exact H|reflexivity|]. cbn. rewrite mp_int_len. unfold siz_int.
    repeat match goal with |- context [if ?c then _ else _] => destruct c end; lia. }
  intros post L. destruct S as [S _]. split; [|split].
  - apply parse_start; [now apply int_form_parses|exact L].
  - intros k Hk. apply parse_start; [now apply read_int_parses|exact L].
  - intros k Hk. apply (read_int_rejects k _ z S Hk [] post L).
Qed.
(** Every MessagePack encoding of the integer is read, not only the shortest. *)
Theorem C36_every_form_is_read : forall bs z k, int_form bs z -> fits_i k z ->
  parses read_int64 bs z /\ parses (read_int k) bs z.
Proof. intros bs z k H Hk. split; [now apply int_form_parses|now apply read_int_parses]. Qed.
Example C36_example :
  to_bytes [inl (PInt (-300))] [inl (PInt (-300))] = Ok [209; 254; 212] /\
  read_int 2 (new_reader [209; 254; 212; 7]) = (Ok (-300)%Z, at_ [209; 254; 212] [7]) /\
  fst (read_int 1 (new_reader [209; 254; 212; 7])) = Err "interger overflow".
Proof. vm_compute. auto. Qed.
Print Assumptions C36_int_round_trip.
Print Assumptions C36_every_form_is_read.

(** ** C37: unsigned integers *)
Theorem C37_uint_round_trip : forall n, fits_u 8 n -> exists bs,
  shortest uint_form bs n /\ writes (enc_uint n) bs /\
  to_bytes [inl (PUint n)] [inl (PUint n)] = Ok bs /\
  forall post, len (bs ++ post) < lim ->
    read_uint64 (new_reader (bs ++ post)) = (Ok n, at_ bs post) /\
    (forall k, fits_u k n -> read_uint k (new_reader (bs ++ post)) = (Ok n, at_ bs post)) /\
    (forall k, ~ fits_u k n -> exists r, read_uint k (new_reader (bs ++ post)) = (Err "interger overflow", r)) /\
    (128 <= n -> exists r, read_int64 (new_reader (bs ++ post)) = (Err "bad prefix for int64", r)).
Proof.
  intros n H. pose proof (mp_uint_shortest n H) as S. exists (mp_uint n). split; [exact S|].
  split; [apply mp_uint_writes|]. split.
  { apply (single (PUint n)); [exact H|reflexivity|]. cbn. rewrite mp_uint_len. unfold siz_uint.
    repeat match goal with |- context [if ?c then _ else _] => destruct c end; lia. }
  intros post L. destruct S as [S _]. pose proof (uint_form_parses _ _ S) as P. split; [|split; [|split]].
  - now apply parse_start.
  - intros k Hk. apply parse_start; [now apply read_uint_parses|exact L].
  - intros k Hk. apply (read_uint_rejects k _ n P Hk [] post L).
  - intros Hn. refine (uint_form_int_rejects _ n S _ [] post L).
    unfold mp_uint. destruct (N.ltb_spec n 128); [lia|].
    repeat match goal with |- context [if ?c then _ else _] => destruct c end; lens; lia.
Qed.
Theorem C37_unsigned_reads_signed : forall bs z, int_form bs z ->
  ((0 <= z)%Z -> parses read_uint64 bs (Z.to_N z)) /\
  ((z < 0)%Z -> rejects read_uint64 bs "bad prefix for uint").
Proof. intros bs z H. split; intros Hz; [now apply int_form_uint|now apply int_form_uint_rejects with z]. Qed.
Example C37_example :
  to_bytes [inl (PUint 70000)] [inl (PUint 70000)] = Ok [206; 0; 1; 17; 112] /\
  read_uint 4 (new_reader [206; 0; 1; 17; 112; 9]) = (Ok 70000, at_ [206; 0; 1; 17; 112] [9]) /\
  fst (read_int64 (new_reader [206; 0; 1; 17; 112])) = Err "bad prefix for int64".
Proof. vm_compute. auto. Qed.
Print Assumptions C37_uint_round_trip.
Print Assumptions C37_unsigned_reads_signed.

(** ** C38: strings and byte arrays *)
Theorem C38_string_round_trip : forall s, len s + 5 < lim -> exists h,
  shortest str_form h (len s) /\ writes (enc_str s) (h ++ s) /\
  to_bytes [inl (PStr s)] [inl (PStr s)] = Ok (h ++ s) /\
  forall post, len ((h ++ s) ++ post) < lim -> read_str (new_reader ((h ++ s) ++ post)) = (Ok s, at_ (h ++ s) post).
Proof.
  intros s H. assert (S : shortest str_form (mp_str_len (len s)) (len s)) by (apply mp_str_len_shortest; pows; lia).
  exists (mp_str_len (len s)). split; [exact S|]. split; [apply mp_str_writes; lia|]. split.
  { apply (single (PStr s)); [cbn; lia|reflexivity|]. cbn. unfold mp_str. rewrite len_app, mp_str_len_siz. unfold siz_str_len.
    repeat match goal with |- context [if ?c then _ else _] => destruct c end; lia. }
  intros post L. apply parse_start; [apply str_parses; apply S|exact L].
Qed.
Theorem C38_bytes_round_trip : forall s, len s + 5 < lim -> exists h,
  shortest bin_form h (len s) /\ writes (enc_bin s) (h ++ s) /\
  forall post, len ((h ++ s) ++ post) < lim ->
    read_bin (new_reader ((h ++ s) ++ post)) = (Ok s, at_ (h ++ s) post) /\
    read_nillable read_bin (new_reader ((h ++ s) ++ post)) = (Ok (Some s), at_ (h ++ s) post).
Proof.
  intros s H. assert (S : shortest bin_form (mp_bin_len (len s)) (len s)) by (apply mp_bin_len_shortest; pows; lia).
  exists (mp_bin_len (len s)). split; [exact S|]. split; [apply mp_bin_writes; lia|].
  intros post L. pose proof (bin_parses _ s (proj1 S)) as P. split.
  - now apply parse_start.
  - apply parse_start; [|exact L]. destruct S as [S _].
    remember (mp_bin_len (len s)) as h eqn:Eh. clear Eh. destruct S; cbn [app] in *; (apply nillable_some_parses; [lia|exact P]).
Qed.
(** A nil slice and an empty slice stay different. *)
Theorem C38_nil_is_not_empty : forall post, len ([192] ++ post) < lim ->
  writes (nillable enc_nil enc_bin None) [192] /\
  read_nillable read_bin (new_reader ([192] ++ post)) = (Ok None, at_ [192] post) /\
  writes (nillable enc_nil enc_bin (Some [])) [196; 0].
Proof.
  intros post L. split; [apply nil_writes|]. split; [apply parse_start; [apply nillable_none_parses|exact L]|].
  apply (mp_bin_writes []). reflexivity.
Qed.
Example C38_example :
  to_bytes [inl (PStr [104; 105])] [inl (PStr [104; 105])] = Ok [162; 104; 105] /\
  read_str (new_reader [162; 104; 105; 1]) = (Ok [104; 105], at_ [162; 104; 105] [1]) /\
  read_nillable read_bin (new_reader [196; 2; 5; 6]) = (Ok (Some [5; 6]), at_ [196; 2; 5; 6] []).
Proof. vm_compute. auto. Qed.
Print Assumptions C38_string_round_trip.
Print Assumptions C38_bytes_round_trip.
Print Assumptions C38_nil_is_not_empty.

(** ** C39: bool, nil, floats *)
Theorem C39_bool_round_trip : forall (b : bool) post, len ([if b then 195 else 194] ++ post) < lim ->
  to_bytes [inl (PBool b)] [inl (PBool b)] = Ok [if b then 195 else 194] /\
  read_bool (new_reader ([if b then 195 else 194] ++ post)) = (Ok b, at_ [if b then 195 else 194] post).
Proof.
  intros b post L. split; [destruct b; reflexivity|]. apply parse_start; [apply bool_parses|exact L].
Qed.
Theorem C39_nil_round_trip : forall A (d : rd A) post, len ([192] ++ post) < lim ->
  to_bytes [inl PNil] [inl PNil] = Ok [192] /\
  is_next_nil (new_reader ([192] ++ post)) = (Ok true, at_ [192] post) /\
  read_nillable d (new_reader ([192] ++ post)) = (Ok None, at_ [192] post).
Proof.
  intros A d post L. split; [reflexivity|]. split; apply parse_start; try exact L; [apply is_next_nil_yes|apply nillable_none_parses].
Qed.
Theorem C39_float_round_trip : forall narrow x post,
  (fits_u 4 x -> len ((202 :: be 4 x) ++ post) < lim ->
   to_bytes [inl (PF32 x)] [inl (PF32 x)] = Ok (202 :: be 4 x) /\
   read_f32 narrow (new_reader ((202 :: be 4 x) ++ post)) = (Ok x, at_ (202 :: be 4 x) post)) /\
  (fits_u 8 x -> len ((203 :: be 8 x) ++ post) < lim ->
   to_bytes [inl (PF64 x)] [inl (PF64 x)] = Ok (203 :: be 8 x) /\
   read_f64 (new_reader ((203 :: be 8 x) ++ post)) = (Ok x, at_ (203 :: be 8 x) post)).
Proof.
  intros nw x post. split; intros H L.
  - split; [apply (single (PF32 x)); [exact H|reflexivity|cbn; lens; lia]|]. apply parse_start; [now apply f32_parses|exact L].
  - split; [apply (single (PF64 x)); [exact H|reflexivity|cbn; lens; lia]|]. apply parse_start; [now apply f64_parses|exact L].
Qed.
Example C39_example :
  (* a signalling NaN *)
  to_bytes [inl (PF64 9218868437227405313)] [inl (PF64 9218868437227405313)] = Ok [203; 127; 240; 0; 0; 0; 0; 0; 1] /\
  fst (read_f64 (new_reader [203; 127; 240; 0; 0; 0; 0; 0; 1])) = Ok 9218868437227405313.
Proof. vm_compute. auto. Qed.
Print Assumptions C39_bool_round_trip.
Print Assumptions C39_nil_round_trip.
Print Assumptions C39_float_round_trip.

(** ** C40: timestamps *)
Theorem C40_time_round_trip : forall parse s n, fits_i 8 s -> n < 1000000000 -> exists bs,
  shortest (fun bs t => time_form bs (fst t) (snd t)) bs (s, n) /\ writes (enc_time s n) bs /\
  to_bytes [inl (PTime s n)] [inl (PTime s n)] = Ok bs /\
  forall post, len (bs ++ post) < lim -> read_time parse (new_reader (bs ++ post)) = (Ok (s, n), at_ bs post).
Proof.
  intros parse s n Hs Hn. pose proof (mp_time_form s n Hs Hn) as S. exists (mp_time s n). split; [exact S|].
  split; [now apply mp_time_writes|]. split.
  { apply (single (PTime s n)); [now split|reflexivity|]. cbn. unfold mp_time.
    repeat match goal with |- context [if ?c then _ else _] => destruct c end; lens; lia. }
  intros post L. apply parse_start; [|exact L]. apply time_form_parses. apply (proj1 S).
Qed.
(** Every timestamp format is read, e.g. one written by another implementation. *)
Theorem C40_every_form_is_read : forall parse bs s n, time_form bs s n -> parses (read_time parse) bs (s, n).
Proof. exact time_form_parses. Qed.
Example C40_example :
  to_bytes [inl (PTime 1700000000 5)] [inl (PTime 1700000000 5)] = Ok [215; 255; 0; 0; 0; 20; 101; 83; 241; 0] /\
  fst (read_time (fun _ => Err "") (new_reader [215; 255; 0; 0; 0; 20; 101; 83; 241; 0])) = Ok (1700000000%Z, 5) /\
  (* before 1970 *)
  to_bytes [inl (PTime (-1) 7)] [inl (PTime (-1) 7)] =
    Ok [199; 12; 255; 0; 0; 0; 7; 255; 255; 255; 255; 255; 255; 255; 255] /\
  fst (read_time (fun _ => Err "") (new_reader [199; 12; 255; 0; 0; 0; 7; 255; 255; 255; 255; 255; 255; 255; 255])) = Ok ((-1)%Z, 7).
Proof. vm_compute. auto. Qed.
Print Assumptions C40_time_round_trip.
Print Assumptions C40_every_form_is_read.

Lemma mp_one : forall a, mp_calls [inr a] = mp_any a.
Proof. intros a. unfold mp_calls. cbn [map concat]. apply app_nil_r. Qed.
Lemma surplus_one : forall a, surplus_calls [inr a] = surplus a.
Proof. intros a. unfold surplus_calls. cbn [map sumN fold_right surplus_call]. lia. Qed.

(** ** C41: the sizer *)
(** No byte array of 255 bytes, no time value behind an interface. *)
Fixpoint fair (a : any) : Prop :=
  match a with
  | ABin s => len s <> 255
  | ATime _ _ | ATimes _ => False
  | AList l => all fair l
  | AMap l => all (fun kv => fair (fst kv) /\ fair (snd kv)) l
  | ACodec l => all (fun c => match c with inl (PBin s) => len s <> 255 | inl _ => True | inr v => fair v end) l
  | _ => True
  end.
Definition fair_call (c : wcall) : Prop := match c with inl (PBin s) => len s <> 255 | inl _ => True | inr v => fair v end.
Lemma sum_zero : forall A (f : A -> N) l, Forall (fun x => f x = 0) l -> sumN (map f l) = 0.
Proof. induction 1 as [|x l H Hl IH]; [reflexivity|]. cbn [map sumN fold_right]. fold (sumN (map f l)). now rewrite H, IH. Qed.
Lemma fair_surplus : forall a, fair a -> surplus a = 0.
Proof.
  induction a using any_rect'; intros F; cbn [fair surplus] in *; try reflexivity; try (destruct F; fail).
  - destruct (N.eqb_spec (len s) 255); [contradiction|reflexivity].
  - apply sum_zero. apply all_Forall in F. rewrite Forall_forall in *. auto.
  - apply sum_zero. apply all_Forall in F. rewrite Forall_forall in *. intros kv Hkv.
    destruct (H kv Hkv) as [I1 I2], (F kv Hkv) as [F1 F2]. now rewrite I1, I2.
  - apply sum_zero. apply all_Forall in F. rewrite Forall_forall in *. intros [p|v] Hc.
    + specialize (F _ Hc). destruct p; try reflexivity. cbn in *. destruct (N.eqb_spec (len s) 255); [contradiction|reflexivity].
    + apply (H _ Hc). apply (F _ Hc).
Qed.
Lemma fair_call_surplus : forall c, fair_call c -> surplus_call c = 0.
Proof.
  intros [p|v] H; [|now apply fair_surplus]. destruct p; try reflexivity. cbn in *.
  destruct (N.eqb_spec (len s) 255); [contradiction|reflexivity].
Qed.
(** [l] and [l'] are the same calls up to the iteration order of maps: the
    sizer and the encoder may iterate differently. *)
Theorem C41_sizer_exact : forall l l', Forall wf_call l -> Forall wf_call l' -> Forall2 reorder_call l l' ->
  Forall fair_call l' -> exists bs, writes (enc_calls l') bs /\
  (len bs < lim -> siz_calls l 0 = len bs /\ to_bytes l l' = Ok bs /\ to_bytes_checked l l' = Ok bs).
Proof.
  intros l l' W W' R F. exists (mp_calls l'). split; [now apply mp_calls_writes|]. intros L.
  assert (Z : surplus_calls l' = 0).
  { unfold surplus_calls. apply sum_zero. revert F. apply Forall_impl. apply fair_call_surplus. }
  split.
  - rewrite siz_calls_spec by exact W. rewrite (reorder_calls_total _ _ R), Z, N.add_0_r. now apply u32_small.
  - destruct (to_bytes_spec l l' W W' R) as [E1 E2]; [rewrite Z; lia|]. rewrite E1, E2, Z. cbn [N.to_nat repeat]. now rewrite app_nil_r.
Qed.
Example C41_example :
  let m := AMap [(AStr [97], AInt 8 1); (AStr [98], AList [ABin [1; 2]; AF32 0])] in
  let m' := AMap [(AStr [98], AList [ABin [1; 2]; AF32 0]); (AStr [97], AInt 8 1)] in
  reorder m m' /\ siz_calls [inr m] 0 = 16 /\
  to_bytes [inr m] [inr m'] = Ok [130; 161; 98; 146; 196; 2; 1; 2; 202; 0; 0; 0; 0; 161; 97; 1].
Proof.
  cbv zeta. split.
  - apply ro_map with [(AStr [98], AList [ABin [1; 2]; AF32 0]); (AStr [97], AInt 8 1)]; [constructor|].
    repeat constructor.
  - vm_compute. auto.
Qed.
Print Assumptions C41_sizer_exact.

(** ** C42: where the sizer and the encoder disagree *)
(** In general the sizer announces [surplus] bytes too many, and they stay zero. *)
Theorem C42_surplus_is_zero_bytes : forall l l', Forall wf_call l -> Forall wf_call l' -> Forall2 reorder_call l l' ->
  exists bs, writes (enc_calls l') bs /\ (len bs + surplus_calls l' < lim ->
    to_bytes l l' = Ok (bs ++ repeat 0 (N.to_nat (surplus_calls l'))) /\
    to_bytes_checked l l' = Ok (bs ++ repeat 0 (N.to_nat (surplus_calls l')))).
Proof.
  intros l l' W W' R. exists (mp_calls l'). split; [now apply mp_calls_writes|]. now apply to_bytes_spec.
Qed.
Theorem C42_bytes_255 : forall s, len s = 255 ->
  to_bytes [inl (PBin s)] [inl (PBin s)] = Ok ((196 :: 255 :: s) ++ [0]) /\
  to_bytes_checked [inr (ABin s)] [inr (ABin s)] = Ok ((196 :: 255 :: s) ++ [0]).
Proof.
  intros s H. assert (E : mp_bin s = 196 :: 255 :: s) by (unfold mp_bin, mp_bin_len; rewrite H; reflexivity).
  split.
  - destruct (to_bytes_spec [inl (PBin s)] [inl (PBin s)]) as [G _]; [repeat constructor; cbn; lia|repeat constructor; cbn; lia|repeat constructor| |].
    + unfold mp_calls, surplus_calls. cbn. rewrite E, H, app_nil_r, !len_cons, H. cbn. lia.
    + rewrite G. unfold mp_calls, surplus_calls. cbn. rewrite E, H, app_nil_r. reflexivity.
  - destruct (to_bytes_spec [inr (ABin s)] [inr (ABin s)]) as [_ G]; [repeat constructor; cbn; lia|repeat constructor; cbn; lia|repeat constructor| |].
    + unfold mp_calls, surplus_calls. cbn. rewrite E, H, app_nil_r, !len_cons, H. cbn. lia.
    + rewrite G. unfold mp_calls, surplus_calls. cbn. rewrite E, H, app_nil_r. reflexivity.
Qed.
Theorem C42_untyped_time : forall s n, fits_i 8 s -> n < 1000000000 ->
  to_bytes_checked [inr (ATime s n)] [inr (ATime s n)] = Ok (repeat 0 (N.to_nat (siz_time s n))) /\
  writes (enc_any (ATime s n)) [] /\ In (siz_time s n) [6; 10; 15].
Proof.
  intros s n Hs Hn. assert (E : siz_time s n = len (mp_time s n)) by (apply siz_time_spec; now split).
  assert (I : In (siz_time s n) [6; 10; 15]).
  { rewrite E. unfold mp_time. repeat match goal with |- context [if ?c then _ else _] => destruct c end; lens; cbn; tauto. }
  split; [|split; [apply (mp_any_writes (ATime s n)); now split|exact I]].
  destruct (to_bytes_spec [inr (ATime s n)] [inr (ATime s n)]) as [_ G].
  - constructor; [now split|constructor].
  - constructor; [now split|constructor].
  - repeat constructor.
  - rewrite mp_one, surplus_one. cbn [surplus mp_any]. rewrite <- E. change (len []) with 0. cbn in I. lia.
  - rewrite G, mp_one, surplus_one. cbn [surplus mp_any]. rewrite <- E. reflexivity.
Qed.
Example C42_example :
  (exists s : bytes, len s = 255 /\ len ((196 :: 255 :: s) ++ [0]) = 258) /\
  to_bytes_checked [inr (ATime 0 0)] [inr (ATime 0 0)] = Ok [0; 0; 0; 0; 0; 0].
Proof. split; [exists (repeat 7 255); vm_compute; auto|vm_compute; auto]. Qed.
Print Assumptions C42_surplus_is_zero_bytes.
Print Assumptions C42_bytes_255.
Print Assumptions C42_untyped_time.

(** ** C43: untyped values *)
(** [a] as iterated by the sizer, [b] as iterated by the encoder. *)
Theorem C43_any_round_trip : forall a b, plain b -> wf_any a -> wf_any b -> reorder a b -> fair b ->
  exists bs, writes (enc_any b) bs /\ (len bs < lim -> to_bytes_checked [inr a] [inr b] = Ok bs) /\
  fparses read_any bs (norm b).
Proof.
  intros a b P W W' R F. exists (mp_any b). split; [now apply mp_any_writes|]. split; [|now apply any_fparses]. intros L.
  assert (Z : surplus b = 0) by now apply fair_surplus.
  destruct (to_bytes_spec [inr a] [inr b]) as [_ E].
  - repeat constructor. exact W.
  - repeat constructor. exact W'.
  - repeat constructor. exact R.
  - unfold mp_calls, surplus_calls. cbn. rewrite Z, app_nil_r. lia.
  - rewrite E. unfold mp_calls, surplus_calls. cbn. rewrite Z, !app_nil_r. reflexivity.
Qed.
(** A nil inside a list is written twice and shifts what follows. *)
Theorem C43_nil_refuted :
  (forall post, len ([192; 192] ++ post) < lim -> writes (enc_any ANil) [192; 192] /\
    exists f, read_any f (new_reader ([192; 192] ++ post)) = Some (Ok ANil, at_ [192] (192 :: post))) /\
  exists bs, to_bytes_checked [inr (AList [ANil; ABool true])] [inr (AList [ANil; ABool true])] = Ok bs /\
    exists f r, read_any f (new_reader bs) = Some (Ok (AList [ANil; ANil]), r).
Proof.
  split.
  - intros post L. split; [apply (mp_any_writes ANil); exact I|]. exists 1%nat. cbn [read_any orun].
    rewrite <- at_start. change ([192; 192] ++ post) with ([192] ++ 192 :: post) in *.
    rewrite (get_u1_parses 192 [] (192 :: post) L). reflexivity.
  - exists [146; 192; 192; 195]. split; [reflexivity|]. exists 5%nat. eexists. vm_compute. reflexivity.
Qed.
(** Keys of different integer types that have the same value merge: the value
    read is the one written last. *)
Theorem C43_keys_merge_refuted : exists k k' v v' bs, k <> k' /\ v <> v' /\
  to_bytes_checked [inr (AMap [(k, v); (k', v')])] [inr (AMap [(k, v); (k', v')])] = Ok bs /\
  exists f r, read_any f (new_reader bs) = Some (Ok (AMap [(norm k', v')]), r).
Proof.
  exists (AInt 1 1), (AInt 8 1), (AStr [97]), (AStr [98]), [130; 1; 161; 97; 1; 161; 98]. split; [discriminate|]. split; [discriminate|]. split; [reflexivity|].
  exists 5%nat. eexists. vm_compute. reflexivity.
Qed.
Example C43_example :
  let a := AMap [(AStr [97], AInt 8 300); (AInt 4 (-5), AList [AF64 0; ABin [1]])] in
  plain a /\ fair a /\ norm a = AMap [(AStr [97], AInt 2 300); (AInt 8 (-5), AList [AF64 0; ABin [1]])] /\
  exists bs, to_bytes_checked [inr a] [inr a] = Ok bs /\ len bs = 20 /\ option_map fst (read_any 9 (new_reader bs)) = Some (Ok (norm a)).
Proof.
  cbv zeta. split; [|split; [|split; [reflexivity|]]].
  - constructor.
    + repeat constructor; unfold fits_i, fits_u; cbn; lia.
    + repeat constructor.
    + cbn. repeat constructor.
  - cbn. repeat split; auto. discriminate.
  - eexists. split; [vm_compute; reflexivity|]. vm_compute. auto.
Qed.
Print Assumptions C43_any_round_trip.
Print Assumptions C43_nil_refuted.
Print Assumptions C43_keys_merge_refuted.

(** ** C44: Skip *)
(** Skip moves over exactly one value, whatever follows; [mp_value false]: no
    fixext 1, no ext 8/16/32. *)
Theorem C44_skip_exact : forall bs, mp_value false bs -> exists f0, forall fuel pre post, (f0 <= fuel)%nat ->
  len (pre ++ bs ++ post) < lim -> skip fuel (at_ pre (bs ++ post)) = Some (Ok tt, at_ (pre ++ bs) post).
Proof. intros bs H. destruct (value_skips bs H) as (f0 & G). exists f0. intros fuel pre post Hf L. now apply G. Qed.
(** In particular over everything the encoder writes for an untyped value. *)
Theorem C44_skip_written : forall a, plain a -> wf_any a -> exists bs, writes (enc_any a) bs /\
  (len bs < lim -> mp_value false bs).
Proof. intros a P W. exists (mp_any a). split; [now apply mp_any_writes|]. now apply any_value. Qed.
(** The remaining formats, among them the 12-byte timestamp written by
    Encoder.WriteTime, are not skipped. *)
Theorem C44_extensions_refuted :
  (forall t b post, exists f, mp_value true [212; t; b] /\ (len ([212; t; b] ++ post) < lim ->
     skip f (new_reader ([212; t; b] ++ post)) = Some (Ok tt, at_ [212; t] (b :: post)))) /\
  (forall h n body post, ext_form h n -> len body = 1 + n -> h <> [212] -> mp_value true (h ++ body) /\
     (len (h ++ body ++ post) < lim -> forall f, exists r, skip (S f) (new_reader (h ++ body ++ post)) = Some (Err "bad prefix", r))) /\
  exists h body, ext_form h 12 /\ len body = 13 /\ writes (enc_time (-1) 7) (h ++ body).
Proof.
  split; [|split].
  - intros t b post. exists 3%nat. split; [apply (v_ext true [212] 1 [t; b]); [reflexivity|constructor|reflexivity]|].
    intros L. unfold skip. rewrite skip_n_S. cbn [N.eqb].
    assert (G : parses get_size [212; t] 0) by (apply head_parses; now apply (discard_ignore_parses 1)).
    change ([212; t; b] ++ post) with ([212; t] ++ b :: post) in *.
    rewrite (parse_start _ _ _ _ _ G L). reflexivity.
  - intros h n body post H Hb Hh. split; [now apply (v_ext true h n body)|]. intros L f. unfold skip. rewrite skip_n_S. cbn [N.eqb].
    assert (X : exists p t, h = p :: t /\ (p = 199 \/ p = 200 \/ p = 201)) by (destruct H; [contradiction|..]; do 2 eexists; (split; [reflexivity|tauto])).
    destruct X as (p & t & -> & Hp). unfold get_size. unfold rbind at 1.
    rewrite <- at_start. rewrite <- !app_comm_cons in *. change (p :: t ++ body ++ post) with ([p] ++ t ++ body ++ post) in *.
    rewrite (get_u1_parses p [] (t ++ body ++ post) L).
    destruct Hp as [-> | [-> | ->]]; eexists; reflexivity.
  - exists [199; 12], (255 :: be 4 7 ++ be 8 18446744073709551615). split; [apply (xf_8 12); unfold fits_u; pows; lia|].
    split; [reflexivity|]. apply (mp_time_writes (-1) 7); unfold fits_i; cbn; lia.
Qed.
Example C44_example :
  mp_value false [146; 130; 161; 97; 1; 2; 203; 0; 0; 0; 0; 0; 0; 0; 0; 192] /\
  skip 9 (at_ [7] ([146; 130; 161; 97; 1; 2; 203; 0; 0; 0; 0; 0; 0; 0; 0; 192] ++ [5])) =
    Some (Ok tt, at_ [7; 146; 130; 161; 97; 1; 2; 203; 0; 0; 0; 0; 0; 0; 0; 0; 192] [5]).
Proof.
  split; [|reflexivity].
  assert (B : forall b, b < 128 \/ 224 <= b < 256 \/ b = 192 \/ b = 194 \/ b = 195 -> mp_value false [b]) by (intros; now constructor).
  apply (v_arr false [146] 2 ([130; 161; 97; 1; 2; 203; 0; 0; 0; 0; 0; 0; 0; 0] ++ [192])); [apply (af_fix 2); lia|].
  apply (vs_cons false 1); [|apply (vs_cons false 0 [192] []); [apply B; lia|constructor]].
  apply (v_map false [130] 2 ([161; 97] ++ [1] ++ [2] ++ [203; 0; 0; 0; 0; 0; 0; 0; 0] ++ [])); [apply (mf_fix 2); lia|].
  apply (vs_cons false 3); [apply (v_str false [161] [97]), (sf_fix 1); lia|].
  apply (vs_cons false 2); [apply B; lia|]. apply (vs_cons false 1); [apply B; lia|].
  apply (vs_cons false 0); [|constructor]. apply (v_num false 203 8); [cbn; tauto|reflexivity].
Qed.
Print Assumptions C44_skip_exact.
Print Assumptions C44_skip_written.
Print Assumptions C44_extensions_refuted.

(** ** C45: hostile lengths *)
(** Skip on this message never returns, whatever the amount of fuel. *)
Theorem C45_skip_diverges_refuted : forall fuel, skip fuel (new_reader [146; 219; 255; 255; 255; 250]) = None.
Proof.
  set (buf := [146; 219; 255; 255; 255; 250]).
  assert (G : forall fuel n, (1 <= n -> skip_n fuel n {| dr_buf := buf; dr_off := 0; dr_err := None |} = None) /\
                             (2 <= n -> skip_n fuel n {| dr_buf := buf; dr_off := 1; dr_err := None |} = None)).
  { induction fuel as [|f IH]; intros n; [split; reflexivity|]. split; intros Hn; rewrite skip_n_S.
    - destruct (N.eqb_spec n 0); [lia|].
      replace (get_size {| dr_buf := buf; dr_off := 0; dr_err := None |}) with (Ok 2, {| dr_buf := buf; dr_off := 1; dr_err := None |}) by reflexivity.
      now rewrite (proj2 (IH 2)).
    - destruct (N.eqb_spec n 0); [lia|].
      replace (get_size {| dr_buf := buf; dr_off := 1; dr_err := None |}) with (Ok 0, {| dr_buf := buf; dr_off := 0; dr_err := None |}) by reflexivity.
      destruct f as [|f]; [reflexivity|]. rewrite (skip_n_S f 0). cbn [N.eqb]. apply IH. lia. }
  intros fuel. now apply (G fuel 1).
Qed.
(** A string or byte array whose announced length wraps around 2^32 makes the
    decoder slice out of range. *)
Theorem C45_wrapping_length_panics_refuted : forall pre n post, len (pre ++ (219 :: be 4 n) ++ post) < lim -> n < lim -> lim <= len pre + 5 + n ->
  (exists r, read_str (at_ pre ((219 :: be 4 n) ++ post)) = (Panic, r)) /\
  (exists r, read_bin (at_ pre ((198 :: be 4 n) ++ post)) = (Panic, r)).
Proof.
  intros pre n post L Hn Hw.
  assert (K : forall p, exists r, get_bytes n (at_ (pre ++ p :: be 4 n) post) = (Panic, r)).
  { intros p. assert (Eo : len (pre ++ p :: be 4 n) = len pre + 5) by (rewrite len_app, len_cons, len_be; lia).
    unfold get_bytes, check, at_. cbn [dr_err dr_off dr_buf]. rewrite (len_app _ (pre ++ p :: be 4 n) post), Eo.
    assert (Lo : len pre + 5 < lim) by (rewrite len_app in L; cbn [app] in L; rewrite len_cons, len_app, len_be in L; lia).
    assert (Hu : u32 (len pre + 5 + n) = len pre + 5 + n - lim) by (unfold u32; lia). rewrite Hu.
    assert (Ll : len pre + 5 + len post < lim) by (rewrite len_app in L; cbn [app] in L; rewrite len_cons, len_app, len_be in L; lia).
    rewrite (u32_small (len pre + 5 + len post)) by exact Ll.
    destruct (N.ltb_spec (len pre + 5 + len post) (len pre + 5 + n - lim)); [lia|]. cbn [dr_err dr_off dr_buf]. rewrite ?Eo, ?Hu.
    destruct (N.leb_spec (len pre + 5) (len pre + 5 + n - lim)); [lia|]. cbn [andb]. eexists. reflexivity. }
  assert (F : fits_u 4 n) by (unfold fits_u; pows; lia).
  assert (S : forall p, get_u 1 (at_ pre ((p :: be 4 n) ++ post)) = (Ok p, at_ (pre ++ [p]) (be 4 n ++ post))).
  { intros p. apply (get_u1_parses p pre (be 4 n ++ post)). revert L. cbn [app]. rewrite !len_app, !len_cons. auto. }
  assert (T : forall p, get_u 4 (at_ (pre ++ [p]) (be 4 n ++ post)) = (Ok n, at_ (pre ++ p :: be 4 n) post)).
  { intros p. rewrite (get_u_be_parses 4 n F (pre ++ [p]) post).
    - now rewrite <- app_assoc.
    - revert L. cbn [app]. rewrite <- app_assoc. cbn [app]. rewrite !len_app, !len_cons. auto. }
  split.
  - destruct (K 219) as [r Hr]. exists r. unfold read_str, read_str_len, rbind. rewrite S.
    replace (is_fix_str 219) with false by reflexivity. replace (is_fix_arr 219) with false by reflexivity. cbn [N.eqb Pos.eqb orb].
    rewrite T. exact Hr.
  - destruct (K 198) as [r Hr]. exists r. unfold read_bin, read_bin_len, rbind. rewrite S.
    replace (is_fix_arr 198) with false by reflexivity. cbn [N.eqb Pos.eqb orb].
    rewrite T. exact Hr.
Qed.
(** On the other buffers - those that contain no four bytes which as a length
    reach beyond 2^32 - Skip ends, does not panic and moves forward inside the buffer. *)
Theorem C45_calm_buffers : forall buf, Forall (fun b => b < 256) buf -> len buf + 131072 <= lim -> calm buf ->
  exists fuel o r, skip fuel (new_reader buf) = Some (o, r) /\ o <> Panic /\ dr_buf r = buf /\ dr_off r <= len buf /\
  (o = Ok tt -> 1 <= dr_off r).
Proof.
  intros buf B L C. exists (S (N.to_nat (len buf))).
  destruct (skip_ends (S (N.to_nat (len buf))) 1 (new_reader buf)) as ((o & r) & E & (O1 & O2 & O3 & O4) & Eb & Q).
  - split; [exact B|]. split; [exact L|]. split; [cbn; lia|now left].
  - exact C.
  - cbn [new_reader dr_buf dr_off]. lia.
  - exists o, r. cbn [fst snd new_reader dr_buf dr_off] in *. rewrite Eb in *. split; [exact E|]. split; [now intros ->|]. split; [reflexivity|]. split; [exact O3|].
    intros ->. lia.
Qed.
Lemma calm_small : forall buf, Forall (fun b => b < 255) buf -> len buf < 16777211 -> calm buf.
Proof.
  intros buf B L pre w post -> Hw. rewrite !Forall_app in B. destruct B as (_ & Hb & _).
  destruct w as [|a [|b [|c [|d [|e w]]]]]; try discriminate.
  rewrite !len_app in L.
  repeat match goal with H : Forall _ (_ :: _) |- _ => inversion H; clear H; subst end.
  unfold unbe. cbn [fold_left]. lia.
Qed.
Example C45_example :
  calm [146; 219; 0; 0; 0; 1; 7; 1] /\ skip 9 (new_reader [146; 219; 0; 0; 0; 1; 7; 1]) = Some (Ok tt, at_ [146; 219; 0; 0; 0; 1; 7; 1] []) /\
  fst (read_str (new_reader [219; 255; 255; 255; 252])) = Panic.
Proof. split; [apply calm_small; [repeat constructor|]; vm_compute; reflexivity|vm_compute; auto]. Qed.
Print Assumptions C45_skip_diverges_refuted.
Print Assumptions C45_wrapping_length_panics_refuted.
Print Assumptions C45_calm_buffers.

(** ** C46: a decoder that ran out of bytes stays failed; reads stay in bounds *)
Theorem C46_sticky : forall A m, decoder_call A m -> forall r e, dr_err r = Some e -> m r = (Err e, r).
Proof. exact decoder_sticky. Qed.
(** [ok]: bytes below 256, buffer shorter than 2^32 - 2^17, offset inside it. *)
Theorem C46_in_bounds : forall A m, decoder_call A m -> forall r, ok r ->
  let out := m r in
  dr_buf (snd out) = dr_buf r /\ dr_off (snd out) <= len (dr_buf r) /\
  match fst out with
  | Ok _ => dr_err (snd out) = None /\ dr_off r <= dr_off (snd out)
  | Err e => dr_err (snd out) = None \/ e = err_range
  | Panic => ~ calm (dr_buf r)
  end.
Proof.
  intros A m H r Hr. destruct (decoder_good A m H r Hr) as ((_ & _ & O & _) & Eb & Q). cbv zeta. rewrite Eb in O. split; [exact Eb|].
  split; [exact O|]. exact Q.
Qed.
(** Every program of decoder calls that ignores errors: after the first range
    error all results are that error and the reader no longer moves. *)
Theorem C46_program : forall A m, decoder_call A m -> forall r, ok r -> dr_err (snd (m r)) = Some err_range ->
  forall B m', decoder_call B m' -> m' (snd (m r)) = (Err err_range, snd (m r)).
Proof. intros A m _ r _ E B m' H. now apply decoder_sticky. Qed.
(** An error about the type of a value is not remembered. *)
Theorem C46_type_errors_are_forgotten_refuted : exists buf r,
  read_bool (new_reader buf) = (Err "bad value for bool", r) /\ dr_err r = None /\ fst (read_int64 r) = Ok 7%Z.
Proof. exists [161; 7]. eexists. split; [reflexivity|]. vm_compute. auto. Qed.
Example C46_example :
  ok (new_reader [205; 1]) /\ fst (read_uint64 (new_reader [205; 1])) = Err err_range /\
  dr_err (snd (read_uint64 (new_reader [205; 1]))) = Some err_range /\
  fst (read_bool (snd (read_uint64 (new_reader [205; 1])))) = Err err_range.
Proof.
  split; [|vm_compute; auto]. unfold ok. split; [repeat constructor|]. split; [vm_compute; discriminate|].
  split; [vm_compute; discriminate|now left].
Qed.
Print Assumptions C46_sticky.
Print Assumptions C46_in_bounds.
Print Assumptions C46_program.
Print Assumptions C46_type_errors_are_forgotten_refuted.

(** ** C47: records *)
(** Fields in any order, repeated, missing, and unknown fields of any type. *)
Theorem C47_decode_any_fields : forall h bss fs, map_form h (len bss) -> Forall2 field_form bss fs ->
  fparses greet_decode (h ++ concat bss) (fold_left (fun g f => f g) fs greeting0).
Proof. exact greet_decode_spec. Qed.
Theorem C47_round_trip : forall g, len (g_first g) + len (g_last g) + 64 < lim -> exists bs,
  to_bytes (greet_encode (Some g)) (greet_encode (Some g)) = Ok bs /\ fparses greet_decode bs g.
Proof.
  intros g L. exists (mp_calls (greet_encode (Some g))).
  assert (W : Forall wf_call (greet_encode (Some g))) by (repeat constructor; cbn; lia).
  assert (Z : surplus_calls (greet_encode (Some g)) = 0) by reflexivity.
  assert (Q : mp_calls (greet_encode (Some g)) =
    [130] ++ concat [(mp_str_len (len first_name) ++ first_name) ++ mp_str_len (len (g_first g)) ++ g_first g;
                     (mp_str_len (len last_name) ++ last_name) ++ mp_str_len (len (g_last g)) ++ g_last g]).
  { unfold mp_calls. cbn [greet_encode map concat mp_call mp_prim]. unfold mp_str. now rewrite <- !app_assoc. }
  assert (SL : forall n, n < lim -> len (mp_str_len n) <= 5 /\ str_form (mp_str_len n) n).
  { intros n Hn. split; [|apply mp_str_len_shortest; pows; lia]. rewrite mp_str_len_siz. unfold siz_str_len.
    repeat match goal with |- context [if ?c then _ else _] => destruct c end; lia. }
  split.
  - destruct (to_bytes_spec _ _ W W) as [E _]; [repeat constructor| |].
    + rewrite Z, Q. cbn [concat]. rewrite app_nil_r, !len_app.
      destruct (SL (len (g_first g))) as [S1 _]; [lia|]. destruct (SL (len (g_last g))) as [S2 _]; [lia|].
      change (len (mp_str_len (len first_name))) with 1. change (len (mp_str_len (len last_name))) with 1.
      change (len first_name) with 9. change (len last_name) with 8. change (len [130]) with 1. unfold bytes in *. lia.
    + rewrite E, Z. cbn [N.to_nat repeat]. now rewrite app_nil_r.
  - rewrite Q.
    assert (Eg : fold_left (fun g f => f g) [fun x => {| g_first := g_first g; g_last := g_last x |}; fun x => {| g_first := g_first x; g_last := g_last g |}] greeting0 = g)
      by (destruct g; reflexivity).
    refine (eq_ind _ (fun x => fparses greet_decode _ x) (greet_decode_spec [130] _ _ _ _) g Eg); [apply (mf_fix 2); lia|].
    repeat constructor; apply SL; try (unfold bytes in *; lia); vm_compute; reflexivity.
Qed.
(** A nil record cannot be told from an empty one. *)
Theorem C47_nil_record : to_bytes (greet_encode None) (greet_encode None) = Ok [192] /\
  forall post, len ([192] ++ post) < lim -> greet_decode 1 (new_reader ([192] ++ post)) = Some (Ok greeting0, at_ [192] post).
Proof.
  split; [reflexivity|]. intros post L. unfold greet_decode, read_map, rbind. rewrite <- at_start.
  rewrite (get_u1_parses 192 [] post L). reflexivity.
Qed.
Example C47_example :
  let bs := [131; 169; 102; 105; 114; 115; 116; 78; 97; 109; 101; 162; 74; 111; 161; 120; 147; 1; 192; 161; 65;
             168; 108; 97; 115; 116; 78; 97; 109; 101; 161; 68] in
  greet_decode 9 (new_reader bs) = Some (Ok {| g_first := [74; 111]; g_last := [68] |}, at_ bs []).
Proof. vm_compute. reflexivity. Qed.
Print Assumptions C47_decode_any_fields.
Print Assumptions C47_round_trip.
Print Assumptions C47_nil_record.

(** ** C48: slices and maps *)
Theorem C48_slice_round_trip : forall A (w : A -> wr) (d : rd A) (g : A -> bytes) l, len l < lim ->
  Forall (fun x => writes (w x) (g x) /\ parses d (g x) x) l -> exists h,
  shortest arr_form h (len l) /\ writes (enc_slice w l) (h ++ concat (map g l)) /\
  fparses (read_slice d) (h ++ concat (map g l)) l.
Proof.
  intros A w d g l L H. exists (mp_arr (len l)). split; [apply mp_arr_shortest; pows; lia|]. split.
  - apply slice_writes; [exact L|]. revert H. apply Forall_impl. tauto.
  - exists (S (List.length l)). intros f Hf pre post Hl.
    rewrite (slice_parses _ _ d g (fun x => x) l L); [now rewrite map_id| |lia|exact Hl].
    revert H. apply Forall_impl. tauto.
Qed.
Theorem C48_map_round_trip : forall K V (wk : K -> wr) (wv : V -> wr) (dk : rd K) (dv : rd V) gk gv (l : list (K * V)), len l < lim ->
  Forall (fun kv => (writes (wk (fst kv)) (gk (fst kv)) /\ writes (wv (snd kv)) (gv (snd kv))) /\
                    (parses dk (gk (fst kv)) (fst kv) /\ parses dv (gv (snd kv)) (snd kv))) l -> exists h,
  shortest map_form h (len l) /\ writes (enc_map_of wk wv l) (h ++ concat (map (fun kv => gk (fst kv) ++ gv (snd kv)) l)) /\
  fparses (read_map_of dk dv) (h ++ concat (map (fun kv => gk (fst kv) ++ gv (snd kv)) l)) l.
Proof.
  intros K V wk wv dk dv gk gv l L H. exists (mp_map (len l)). split; [apply mp_map_shortest; pows; lia|]. split.
  - apply map_writes; [exact L|]. revert H. apply Forall_impl. tauto.
  - exists (S (List.length l)). intros f Hf pre post Hl. apply map_parses; [exact L| |lia|exact Hl].
    revert H. apply Forall_impl. tauto.
Qed.
Example C48_example :
  option_map fst (read_slice read_str 9 (new_reader [147; 161; 97; 160; 162; 98; 99; 7])) = Some (Ok [[97]; []; [98; 99]]) /\
  option_map fst (read_map_of read_str (read_int 4) 9 (new_reader [130; 161; 97; 5; 161; 98; 255])) = Some (Ok [([97], 5%Z); ([98], (-1)%Z)]) /\
  Forall (fun x => writes (enc_str x) (mp_str x) /\ parses read_str (mp_str x) x) [[97]; []; [98; 99]].
Proof.
  split; [vm_compute; reflexivity|]. split; [vm_compute; reflexivity|].
  repeat constructor; try (apply mp_str_writes; vm_compute; reflexivity); apply str_parses, mp_str_len_shortest; vm_compute; reflexivity.
Qed.
Print Assumptions C48_slice_round_trip.
Print Assumptions C48_map_round_trip.

(** ** C75: ReadAny ends on every input *)
Theorem C75_read_any_ends : forall buf off, Forall (fun b => b < 256) buf -> len buf + 131072 <= lim -> off <= len buf ->
  exists o r, read_any (2 * N.to_nat (len buf - off) + 1) {| dr_buf := buf; dr_off := off; dr_err := None |} = Some (o, r) /\
  dr_buf r = buf /\ dr_off r <= len buf /\ (forall v, o = Ok v -> off + 1 <= dr_off r).
Proof.
  intros buf off B L O.
  destruct (proj1 (read_ends (2 * N.to_nat (len buf - off) + 1)) {| dr_buf := buf; dr_off := off; dr_err := None |})
    as ((o & r) & E & (O1 & O2 & O3 & O4) & Eb & Q).
  - split; [exact B|]. split; [exact L|]. split; [exact O|now left].
  - unfold left_. cbn [dr_buf dr_off]. lia.
  - cbn [fst snd dr_buf dr_off] in *. exists o, r. rewrite Eb in *. repeat split; auto. intros v ->. exact Q.
Qed.
Example C75_example :
  (* 2^32 - 1 elements announced, none present: an error at once *)
  option_map fst (read_any 9 (new_reader [221; 255; 255; 255; 255])) = Some (Err err_range) /\
  (* the input on which Skip does not end *)
  exists o, option_map fst (read_any 13 (new_reader [146; 219; 255; 255; 255; 250])) = Some o.
Proof. split; [vm_compute; reflexivity|eexists; vm_compute; reflexivity]. Qed.
Print Assumptions C75_read_any_ends.

(** ** C76: Skip accepts a value that is cut off *)
Lemma get_size_truncated : forall pre p k body, num_width p k -> len body < k -> len (pre ++ p :: body) < lim - 8 ->
  get_size (at_ pre (p :: body)) = (Ok 0, {| dr_buf := pre ++ p :: body; dr_off := len pre + 1; dr_err := Some err_range |}).
Proof.
  intros pre p k body H L Lp.
  assert (K : k <= 8) by (unfold num_width in H; cbn [In] in H; repeat (destruct H as [[= <- <-]|H]; [lia|]); destruct H).
  assert (D : discard_ignore k (at_ (pre ++ [p]) body) = (Ok 0, {| dr_buf := pre ++ p :: body; dr_off := len pre + 1; dr_err := Some err_range |})).
  { unfold discard_ignore, discard, check, at_. cbn [dr_err dr_off dr_buf app]. rewrite <- app_assoc. cbn [app].
    rewrite !len_app, !len_cons in *. change (len []) with 0. rewrite !u32_small by lia.
    destruct (N.ltb_spec (len pre + (1 + len body)) (len pre + (1 + 0) + k)); [|lia]. reflexivity. }
  unfold get_size, rbind. change (p :: body) with ([p] ++ body) at 1.
  rewrite (get_u1_parses p pre body) by (cbn [app]; lia).
  unfold num_width in H; cbn [In] in H; repeat (destruct H as [[= <- <-]|H]; [exact D|]); destruct H.
Qed.
Theorem C76_skip_truncated_refuted : forall pre p k body, num_width p k -> len body < k -> len (pre ++ p :: body) < lim - 8 ->
  exists r, skip 2 (at_ pre (p :: body)) = Some (Ok tt, r) /\ dr_off r = len pre + 1 /\ dr_err r = Some err_range.
Proof.
  intros pre p k body H L Lp. unfold skip. rewrite skip_n_S. cbn [N.eqb]. rewrite (get_size_truncated pre p k body H L Lp).
  eexists. split; [reflexivity|]. split; reflexivity.
Qed.
(** So a record whose last, unknown field is cut off decodes without error. *)
Theorem C76_record_truncated_refuted : forall name p k body, name <> first_name -> name <> last_name -> len name < 32 -> num_width p k -> len body < k ->
  exists r, greet_decode 3 (new_reader ((129 :: (160 + len name) :: name) ++ p :: body)) = Some (Ok greeting0, r).
Proof.
  intros name p k body N1 N2 Ln H L.
  assert (K : k <= 8) by (unfold num_width in H; cbn [In] in H; repeat (destruct H as [[= <- <-]|H]; [lia|]); destruct H).
  set (pre := 129 :: (160 + len name) :: name).
  assert (Lp : len pre = 2 + len name) by (unfold pre; rewrite !len_cons; lia).
  assert (M : read_map (new_reader (pre ++ p :: body)) = (Ok 1, at_ [129] (((160 + len name) :: name) ++ p :: body))).
  { unfold pre. change ((129 :: (160 + len name) :: name) ++ p :: body) with ([129] ++ ((160 + len name) :: name) ++ p :: body).
    apply parse_start; [apply map_form_parses; apply (mf_fix 1); lia|]. cbn [app]. rewrite !len_cons, len_app, len_cons. lia. }
  unfold greet_decode. rewrite M. cbn [orun]. rewrite greet_fields_S. cbn [N.eqb].
  assert (R : read_str (at_ [129] (((160 + len name) :: name) ++ p :: body)) = (Ok name, at_ pre (p :: body))).
  { apply (str_parses [160 + len name] name); [apply sf_fix; lia|]. cbn [app]. rewrite !len_cons, len_app, len_cons. lia. }
  rewrite R. cbn [orun]. rewrite !bytes_eqb_neq by assumption.
  assert (D : get_size (at_ pre (p :: body)) = (Ok 0, {| dr_buf := pre ++ p :: body; dr_off := len pre + 1; dr_err := Some err_range |})).
  { apply get_size_truncated with k; auto. rewrite len_app, len_cons. lia. }
  unfold skip. rewrite skip_n_S. cbn [N.eqb]. rewrite D. eexists. reflexivity.
Qed.
Example C76_example :
  skip 2 (new_reader [203; 1; 2]) = Some (Ok tt, {| dr_buf := [203; 1; 2]; dr_off := 1; dr_err := Some err_range |}) /\
  option_map fst (greet_decode 3 (new_reader [129; 161; 120; 203])) = Some (Ok greeting0).
Proof. vm_compute. auto. Qed.
Print Assumptions C76_skip_truncated_refuted.
Print Assumptions C76_record_truncated_refuted.
