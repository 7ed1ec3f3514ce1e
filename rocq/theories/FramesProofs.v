(** Proofs about the frame codecs. *)
From Verif Require Import Base BaseFacts FramesModel.
Local Ltac Zify.zify_post_hook ::= Z.div_mod_to_equations.
#[local] Arguments N.add : simpl never.
#[local] Arguments N.mul : simpl never.

(** ** Header *)
Lemma land_31 : forall n, N.land n 2147483647 = n mod 2147483648.
Proof. intros. change 2147483647 with (N.ones 31). now rewrite N.land_ones. Qed.
Lemma land_1023 : forall n, N.land n 1023 = n mod 1024.
Proof. intros. change 1023 with (N.ones 10). now rewrite N.land_ones. Qed.
Lemma type_bits : forall n, N.shiftr (N.land n 64512) 10 = (n / 1024) mod 64.
Proof.
  intros. rewrite N.shiftr_land. change (N.shiftr 64512 10) with (N.ones 6).
  rewrite N.land_ones, N.shiftr_div_pow2. reflexivity.
Qed.
Lemma pack_word : forall ty fg, ty < 64 -> fg < 1024 ->
  N.lor (u16 (N.shiftl ty 10)) fg = ty * 1024 + fg.
Proof.
  intros ty fg Hty Hfg. rewrite N.shiftl_mul_pow2. change (2 ^ 10) with 1024.
  rewrite u16_small by lia.
  change 1024 with (2 ^ 10). rewrite <- N.shiftl_mul_pow2.
  assert (Hd : N.land (N.shiftl ty 10) fg = 0).
  { apply N.bits_inj_0; intros i; rewrite N.land_spec.
    destruct (N.lt_ge_cases i 10) as [Hi|Hi];
      [rewrite N.shiftl_spec_low by lia; reflexivity|].
    rewrite (N.bits_above_log2 fg), andb_false_r; auto.
    destruct (N.eq_dec fg 0) as [->|Hz]; [cbn; lia|].
    pose proof (proj1 (N.log2_lt_pow2 fg 10 ltac:(lia)) ltac:(exact Hfg)). lia. }
  rewrite N.add_nocarry_lxor by exact Hd. now rewrite N.lxor_lor.
Qed.

Lemma header_len : forall s t f, len (header_bytes s t f) = 6.
Proof. intros. unfold header_bytes. rewrite len_app, !len_be. reflexivity. Qed.
Lemma header_stream : forall s t f, h_stream_id (header_bytes s t f) = s mod 2147483648.
Proof.
  intros. unfold h_stream_id, header_bytes.
  rewrite takeN_app_exact by (rewrite len_be; reflexivity).
  rewrite unbe_be, land_31. change (256 ^ N.of_nat 4) with 4294967296. lia.
Qed.
Lemma header_n : forall s t f, t < 64 -> f < 1024 -> h_n (header_bytes s t f) = t * 1024 + f.
Proof.
  intros s t f Ht Hf. unfold h_n, header_bytes.
  rewrite dropN_app_exact by (rewrite len_be; reflexivity).
  rewrite takeN_all by (rewrite len_be; cbn; lia).
  rewrite pack_word by assumption. apply unbe_be_small.
  change (256 ^ N.of_nat 2) with 65536. lia.
Qed.
Lemma header_type : forall s t f, t < 64 -> f < 1024 -> h_type (header_bytes s t f) = t.
Proof. intros. unfold h_type. rewrite type_bits, header_n by assumption. lia. Qed.
Lemma header_flag : forall s t f, t < 64 -> f < 1024 -> h_flag (header_bytes s t f) = f.
Proof. intros. unfold h_flag. rewrite land_1023, header_n by assumption. lia. Qed.
Lemma header_fields_bounded : forall h,
  h_stream_id h < 2147483648 /\ h_type h < 64 /\ h_flag h < 1024.
Proof.
  intros. unfold h_stream_id, h_type, h_flag. rewrite land_31, type_bits, land_1023.
  repeat split; apply N.mod_lt; lia.
Qed.
Lemma parse_header_app : forall s t f body,
  parse_header (header_bytes s t f ++ body) = Ok (header_bytes s t f)
  /\ dropN FrameHeaderLen (header_bytes s t f ++ body) = body.
Proof.
  intros. unfold parse_header, FrameHeaderLen. rewrite len_app, header_len.
  destruct (N.leb_spec 6 (6 + len body)); [|lia].
  rewrite takeN_app_exact, dropN_app_exact by apply header_len. auto.
Qed.

(** ** Writers *)
Definition writes (e : bytes -> res bytes) (w : bytes) : Prop :=
  forall buf, len w <= len buf -> e buf = Ok (w ++ dropN (len w) buf).

Lemma writes_done : writes (fun b => Ok b) [].
Proof. intros buf _. rewrite len_nil, dropN_0. reflexivity. Qed.
Lemma writes_put : forall bs k w, writes k w -> writes (put bs k) (bs ++ w).
Proof.
  intros bs k w H buf Hl. rewrite len_app in *. unfold put.
  destruct (N.leb_spec (len bs) (len buf)); [|lia].
  rewrite H by (rewrite len_dropN; lia). cbn [bind].
  rewrite dropN_dropN, app_assoc. reflexivity.
Qed.
Lemma copy_into_fits : forall bs buf, len bs <= len buf ->
  copy_into bs buf = bs ++ dropN (len bs) buf.
Proof. intros. unfold copy_into. now rewrite takeN_all. Qed.
Lemma writes_copy_end : forall bs, writes (copy_end bs) bs.
Proof. intros bs buf H. unfold copy_end. now rewrite copy_into_fits. Qed.
Lemma writes_copy_adv : forall bs n k w, n = len bs -> writes k w -> writes (copy_adv bs n k) (bs ++ w).
Proof.
  intros bs n k w -> H buf Hl. rewrite len_app in *. unfold copy_adv.
  rewrite copy_into_fits by lia. rewrite len_app, len_dropN.
  destruct (N.leb_spec (len bs) (len bs + (len buf - len bs))); [|lia].
  rewrite dropN_app_len, takeN_app_len.
  rewrite H by (rewrite len_dropN; lia). cbn [bind].
  now rewrite dropN_dropN, app_assoc.
Qed.

(** The metadata block on the wire. *)
Definition md_block (md : bytes) : bytes :=
  if 0 <? len md then be 3 (len md) ++ md else [].
Lemma writes_metadata : forall md k w, len md < 4294967296 -> writes k w ->
  writes (put_metadata md k) (md_block md ++ w).
Proof.
  intros md k w Hl H. unfold put_metadata, md_block. rewrite u32_small by assumption.
  destruct (0 <? len md); [|exact H].
  rewrite <- app_assoc. apply writes_put. now apply writes_copy_adv.
Qed.
Lemma get_metadata_block : forall md data, len md < 16777216 ->
  get_metadata (0 <? len md) (md_block md ++ data) = Ok (md, data).
Proof.
  intros md data H. unfold get_metadata, md_block.
  destruct (N.ltb_spec 0 (len md)) as [Hp|Hz].
  - rewrite <- app_assoc, get_be_app by (cbn; lia). cbn [bind fst snd].
    now apply split_at_ok.
  - rewrite (len_0_nil _ md) by lia. reflexivity.
Qed.

(** Wire forms *)
Definition wire_request_n (f : request_n) := header_bytes (rn_stream f) 8 0 ++ be 4 (rn_n f).
Definition wire_cancel (f : cancel) := header_bytes (cn_stream f) 9 0.
Definition wire_error (f : error_frame) :=
  header_bytes (er_stream f) 11 0 ++ be 4 (er_code f) ++ er_data f.
Definition wire_payload (f : payload) :=
  header_bytes (pl_stream f) 10 (payload_flags f) ++ md_block (pl_metadata f) ++ pl_data f.
Definition wire_request (f : request) :=
  header_bytes (rq_stream f) (rq_type f) (request_flags f)
  ++ (if has_initial (rq_type f) then be 4 (rq_initial f) else [])
  ++ md_block (rq_metadata f) ++ rq_data f.
Definition token_block (t : bytes) : bytes :=
  if 0 <? len t then be 2 (len t) ++ t else [].
Definition wire_setup (f : setup) :=
  header_bytes 0 1 (setup_flags f)
  ++ (be 2 (su_major f) ++ be 2 (su_minor f) ++ be 4 (duration_to_wire (su_keepalive f))
      ++ be 4 (duration_to_wire (su_lifetime f)))
  ++ token_block (su_token f)
  ++ (len (su_mime_md f) :: su_mime_md f)
  ++ (len (su_mime_data f) :: su_mime_data f)
  ++ md_block (su_metadata f) ++ su_data f.
Definition wire (f : frame) : bytes :=
  match f with
  | FSetup x => wire_setup x
  | FRequest x => wire_request x
  | FRequestN x => wire_request_n x
  | FCancel x => wire_cancel x
  | FPayload x => wire_payload x
  | FError x => wire_error x
  end.

Lemma writes_request_n : forall f, writes (encode_request_n f) (wire_request_n f).
Proof.
  intros f. unfold encode_request_n, wire_request_n.
  apply writes_put. pose proof (writes_put (be 4 (rn_n f)) _ _ writes_done) as H.
  rewrite app_nil_r in H. exact H.
Qed.
Lemma writes_cancel : forall f, writes (encode_cancel f) (wire_cancel f).
Proof.
  intros f. pose proof (writes_put (wire_cancel f) _ _ writes_done) as H.
  rewrite app_nil_r in H. exact H.
Qed.
Lemma writes_error : forall f, writes (encode_error f) (wire_error f).
Proof. intros f. apply writes_put, writes_put, writes_copy_end. Qed.
Lemma writes_payload : forall f, len (pl_metadata f) < 4294967296 ->
  writes (encode_payload f) (wire_payload f).
Proof. intros f H. apply writes_put, writes_metadata; [assumption|apply writes_copy_end]. Qed.
Lemma writes_request : forall f, len (rq_metadata f) < 4294967296 ->
  writes (encode_request f) (wire_request f).
Proof.
  intros f H. unfold encode_request, wire_request. apply writes_put.
  destruct (has_initial (rq_type f)).
  - apply writes_put, writes_metadata; [assumption|apply writes_copy_end].
  - cbn [app]. apply writes_metadata; [assumption|apply writes_copy_end].
Qed.
Lemma writes_token : forall t k w, len t < 65536 -> writes k w ->
  writes (put_token t k) (token_block t ++ w).
Proof.
  intros t k w Hl H. unfold put_token, token_block. rewrite u16_small by assumption.
  destruct (0 <? len t); [|exact H].
  rewrite <- app_assoc. apply writes_put. now apply writes_copy_adv.
Qed.
Lemma writes_setup : forall f, len (su_metadata f) < 4294967296 ->
  len (su_token f) < 65536 -> len (su_mime_md f) < 256 -> len (su_mime_data f) < 256 ->
  writes (encode_setup f) (wire_setup f).
Proof.
  intros f Hmd Ht H1 H2. unfold encode_setup, wire_setup. apply writes_put, writes_put.
  apply writes_token; [assumption|].
  unfold put_mime. rewrite !u8_small by assumption.
  apply writes_put, writes_put, writes_metadata; [assumption|apply writes_copy_end].
Qed.

(** Size of the wire form *)
Lemma len_md_block : forall md, len (md_block md) = if 0 <? len md then 3 + len md else 0.
Proof.
  intros. unfold md_block. destruct (0 <? len md); [|reflexivity].
  rewrite len_app, len_be. lia.
Qed.
Lemma len_token_block : forall md, len (token_block md) = if 0 <? len md then 2 + len md else 0.
Proof.
  intros. unfold token_block. destruct (0 <? len md); [|reflexivity].
  rewrite len_app, len_be. lia.
Qed.
Lemma size_payload_wire : forall f, 9 + len (pl_metadata f) + len (pl_data f) < 4294967296 ->
  size_payload f = len (wire_payload f).
Proof.
  intros f H. unfold size_payload, wire_payload, FrameHeaderLen.
  rewrite !len_app, header_len, len_md_block.
  rewrite (u32_small (len (pl_metadata f))) by lia.
  rewrite (u32_small (len (pl_metadata f) + _)) by lia.
  rewrite (u32_small (6 + _)) by lia.
  destruct (N.ltb_spec 0 (len (pl_metadata f))); [rewrite u32_small by lia|]; lia.
Qed.
Lemma size_request_wire : forall f, 13 + len (rq_metadata f) + len (rq_data f) < 4294967296 ->
  size_request f = len (wire_request f).
Proof.
  intros f H. unfold size_request, wire_request, FrameHeaderLen.
  rewrite !len_app, header_len, len_md_block.
  rewrite (u32_small (len (rq_metadata f))) by lia.
  rewrite (u32_small (len (rq_metadata f) + _)) by lia.
  destruct (has_initial (rq_type f)).
  - rewrite (u32_small (6 + 4 + _)) by lia. rewrite len_be.
    destruct (N.ltb_spec 0 (len (rq_metadata f))); [rewrite u32_small by lia|]; lia.
  - rewrite (u32_small (6 + _)) by lia. rewrite len_nil.
    destruct (N.ltb_spec 0 (len (rq_metadata f))); [rewrite u32_small by lia|]; lia.
Qed.
Lemma size_error_wire : forall f, 10 + len (er_data f) < 4294967296 ->
  size_error f = len (wire_error f).
Proof.
  intros f H. unfold size_error, wire_error, FrameHeaderLen.
  rewrite !len_app, header_len, len_be, u32_small; lia.
Qed.
Lemma size_request_n_wire : forall f, size_request_n f = len (wire_request_n f).
Proof.
  intros. unfold size_request_n, wire_request_n, FrameHeaderLen.
  rewrite len_app, header_len, len_be. reflexivity.
Qed.
Lemma size_cancel_wire : forall f, size_cancel f = len (wire_cancel f).
Proof. intros. unfold size_cancel, wire_cancel. now rewrite header_len. Qed.
Lemma size_setup_wire : forall f,
  25 + len (su_metadata f) + 2 * len (su_token f) + len (su_data f)
  + len (su_mime_md f) + len (su_mime_data f) < 4294967296 ->
  size_setup f = len (wire_setup f) + len (su_token f).
Proof.
  intros f H. unfold size_setup, wire_setup, FrameHeaderLen.
  rewrite !len_app, header_len, !len_be, len_md_block, len_token_block, !len_cons.
  rewrite (u32_small (len (su_metadata f))) by lia.
  rewrite (u32_small (len (su_token f))) by lia.
  rewrite (u32_small (len (su_data f) + _ + _ + _)) by lia.
  rewrite (u32_small (6 + 14 + _ + _ + _)) by lia.
  destruct (N.ltb_spec 0 (len (su_metadata f))), (N.ltb_spec 0 (len (su_token f)));
    rewrite ?u32_small; rewrite ?u32_small; lia.
Qed.

Lemma len_zeros : forall n, len (zeros n) = n.
Proof. intros. unfold zeros. rewrite len_repeat. lia. Qed.
Lemma zeros_add : forall a b, zeros (a + b) = zeros a ++ zeros b.
Proof. intros. unfold zeros. rewrite N2Nat.inj_add. apply repeat_app. Qed.
Lemma dropN_zeros : forall a b, dropN a (zeros (a + b)) = zeros b.
Proof. intros. rewrite zeros_add. apply dropN_app_exact, len_zeros. Qed.

Lemma writes_zeros : forall e w n, writes e w -> n = len w -> e (zeros n) = Ok w.
Proof.
  intros e w n H ->. rewrite H by (rewrite len_zeros; lia).
  rewrite dropN_all by (rewrite len_zeros; lia). now rewrite app_nil_r.
Qed.
Lemma writes_zeros_more : forall e w n, writes e w ->
  e (zeros (len w + n)) = Ok (w ++ zeros n).
Proof.
  intros e w n H. rewrite H by (rewrite len_zeros; lia). now rewrite dropN_zeros.
Qed.

(** ** Decoding the wire form *)
Lemma frame_of_wire : forall s t f body, frame_of_bytes (header_bytes s t f ++ body)
  = decode_by_type (header_bytes s t f) body.
Proof.
  intros. unfold frame_of_bytes. destruct (parse_header_app s t f body) as [-> ->]. reflexivity.
Qed.

Lemma payload_flags_lt : forall f, payload_flags f < 1024.
Proof.
  intros f. unfold payload_flags.
  destruct (0 <? _), (pl_next f), (pl_complete f), (pl_follows f); reflexivity.
Qed.
Lemma request_flags_lt : forall f, request_flags f < 1024.
Proof.
  intros f. unfold request_flags. destruct (0 <? _), (_ && _); reflexivity.
Qed.
Lemma setup_flags_lt : forall f, setup_flags f < 1024.
Proof.
  intros f. unfold setup_flags. destruct (0 <? _), (0 <? _), (su_lease f); reflexivity.
Qed.

Ltac stream_small := rewrite header_stream, N.mod_small by assumption.

Lemma decode_wire_request_n : forall f, rn_stream f < 2147483648 -> rn_n f < 4294967296 ->
  frame_of_bytes (wire_request_n f) = Ok (FRequestN f).
Proof.
  intros [s n] Hs Hn. cbn [rn_stream rn_n] in *. unfold wire_request_n.
  rewrite frame_of_wire. unfold decode_by_type. rewrite header_type by lia.
  cbn [N.eqb Pos.eqb orb]. unfold decode_request_n. cbn [rn_n].
  cbn -[header_bytes h_stream_id get_be be].
  rewrite <- (app_nil_r (be 4 n)), get_be_app by (cbn; lia). cbn [bind fst].
  now stream_small.
Qed.
Lemma decode_wire_cancel : forall f, cn_stream f < 2147483648 ->
  frame_of_bytes (wire_cancel f) = Ok (FCancel f).
Proof.
  intros [s] Hs. cbn [cn_stream] in *. unfold wire_cancel.
  rewrite <- (app_nil_r (header_bytes _ _ _)).
  rewrite frame_of_wire. unfold decode_by_type. rewrite header_type by lia.
  cbn -[header_bytes h_stream_id]. now stream_small.
Qed.
Lemma decode_wire_error : forall f, er_stream f < 2147483648 -> er_code f < 4294967296 ->
  frame_of_bytes (wire_error f) = Ok (FError f).
Proof.
  intros [s c d] Hs Hn. cbn [er_stream er_code] in *. unfold wire_error.
  rewrite frame_of_wire. unfold decode_by_type. rewrite header_type by lia.
  unfold decode_error. cbn -[header_bytes h_stream_id get_be be].
  rewrite get_be_app by (cbn; lia). cbn [bind fst snd].
  now stream_small.
Qed.
Lemma decode_wire_payload : forall f, pl_stream f < 2147483648 -> len (pl_metadata f) < 16777216 ->
  frame_of_bytes (wire_payload f) = Ok (FPayload f).
Proof.
  intros f Hs Hm. unfold wire_payload.
  rewrite frame_of_wire. unfold decode_by_type.
  rewrite header_type by (try lia; apply payload_flags_lt).
  unfold decode_payload. rewrite header_flag by (try lia; apply payload_flags_lt).
  cbn -[header_bytes h_stream_id get_metadata payload_flags flag_check].
  assert (Hflags : flag_check (payload_flags f) FlagMetadata = (0 <? len (pl_metadata f))
    /\ flag_check (payload_flags f) FlagFollow = pl_follows f
    /\ flag_check (payload_flags f) FlagComplete = pl_complete f
    /\ flag_check (payload_flags f) FlagNext = pl_next f).
  { unfold payload_flags. rewrite u32_small by lia.
    destruct (0 <? _), (pl_next f), (pl_complete f), (pl_follows f); repeat split. }
  destruct Hflags as (-> & -> & -> & ->).
  rewrite get_metadata_block by assumption. cbn [bind fst snd].
  stream_small. now destruct f.
Qed.

(** What the decoder makes of a request: the normal form. *)
Definition request_norm (f : request) : request :=
  {| rq_type := rq_type f; rq_stream := rq_stream f;
     rq_metadata := rq_metadata f; rq_data := rq_data f;
     rq_follows := false;
     rq_complete := if rq_type f =? 7 then rq_complete f else true;
     rq_initial := if (rq_type f =? 6) || (rq_type f =? 7) then rq_initial f else 1 |}.

Lemma decode_wire_request : forall f, 4 <= rq_type f <= 7 ->
  rq_stream f < 2147483648 -> len (rq_metadata f) < 16777216 -> rq_initial f < 4294967296 ->
  frame_of_bytes (wire_request f) = Ok (FRequest (request_norm f)).
Proof.
  intros f Ht Hs Hm Hi. unfold wire_request.
  rewrite frame_of_wire. unfold decode_by_type.
  rewrite header_type by (try lia; apply request_flags_lt).
  assert (Hcase : rq_type f = 4 \/ rq_type f = 5 \/ rq_type f = 6 \/ rq_type f = 7) by lia.
  unfold decode_request.
  rewrite header_type, header_flag by (try lia; apply request_flags_lt).
  assert (Hflags : flag_check (request_flags f) FlagMetadata = (0 <? len (rq_metadata f))
    /\ flag_check (request_flags f) FlagFollow = false
    /\ flag_check (request_flags f) FlagComplete = (rq_type f =? 7) && rq_complete f).
  { unfold request_flags. rewrite u32_small by lia. unfold FrameTypeRequestChannel.
    destruct (0 <? _), (_ && _); repeat split. }
  destruct Hflags as (-> & -> & ->).
  unfold request_norm, has_initial.
  destruct Hcase as [E|[E|[E|E]]]; rewrite E;
    cbn -[header_bytes h_stream_id get_metadata get_be be];
    rewrite ?get_be_app by (cbn; lia); cbn [bind fst snd];
    rewrite get_metadata_block by assumption; cbn [bind fst snd];
    stream_small; reflexivity.
Qed.

Lemma duration_to_wire_lt : forall d, duration_to_wire d < 4294967296.
Proof. intros. unfold duration_to_wire. lia. Qed.
Lemma duration_wire : forall d,
  duration_of_wire (duration_to_wire d) = (d mod 4294967296 / 1000000 * 1000000)%Z.
Proof. intros. unfold duration_of_wire, duration_to_wire. lia. Qed.

Definition setup_norm (f : setup) (extra : bytes) : setup :=
  {| su_major := su_major f; su_minor := su_minor f;
     su_keepalive := (su_keepalive f mod 4294967296 / 1000000 * 1000000)%Z;
     su_lifetime := (su_lifetime f mod 4294967296 / 1000000 * 1000000)%Z;
     su_token := su_token f; su_mime_md := su_mime_md f; su_mime_data := su_mime_data f;
     su_metadata := su_metadata f; su_data := su_data f ++ extra; su_lease := su_lease f |}.

Lemma get_mime_app : forall m rest, len m < 255 -> get_mime ((len m :: m) ++ rest) = Ok (m, rest).
Proof.
  intros m rest H. cbn [app get_mime]. rewrite u8_small by lia.
  destruct (N.ltb_spec (1 + len m) 1); [lia|].
  apply split_at_ok. lia.
Qed.
Lemma get_token_app : forall t rest, len t < 65534 ->
  get_token (0 <? len t) (token_block t ++ rest) = Ok (t, rest).
Proof.
  intros t rest H. unfold get_token, token_block.
  destruct (N.ltb_spec 0 (len t)).
  - rewrite <- app_assoc, get_be_app by (cbn; lia). cbn [bind fst snd].
    rewrite u16_small by lia.
    destruct (N.ltb_spec (2 + len t) 2); [lia|]. apply split_at_ok. lia.
  - rewrite (len_0_nil _ t) by lia. reflexivity.
Qed.

Lemma setup_flags_check : forall f, len (su_metadata f) < 4294967296 -> len (su_token f) < 65536 ->
  flag_check (setup_flags f) FlagMetadata = (0 <? len (su_metadata f))
  /\ flag_check (setup_flags f) FlagResume = (0 <? len (su_token f))
  /\ flag_check (setup_flags f) FlagLease = su_lease f.
Proof.
  intros f H1 H2. unfold setup_flags. rewrite u32_small, u16_small by assumption.
  destruct (0 <? len (su_metadata f)), (0 <? len (su_token f)), (su_lease f); repeat split.
Qed.

Lemma decode_wire_setup : forall f extra,
  su_major f < 65536 -> su_minor f < 65536 ->
  len (su_metadata f) < 16777216 -> len (su_token f) < 65534 ->
  len (su_mime_md f) < 255 -> len (su_mime_data f) < 255 ->
  frame_of_bytes (wire_setup f ++ extra) = Ok (FSetup (setup_norm f extra)).
Proof.
  intros f extra H1 H2 Hm Ht Hm1 Hm2. unfold wire_setup.
  rewrite <- app_assoc, frame_of_wire. unfold decode_by_type.
  rewrite header_type by (try lia; apply setup_flags_lt).
  cbn [N.eqb Pos.eqb FrameTypeSetup]. unfold decode_setup.
  rewrite header_flag by (try lia; apply setup_flags_lt).
  destruct (setup_flags_check f) as (-> & -> & ->); [lia|lia|].
  rewrite <- !app_assoc.
  rewrite get_be_app by (cbn; lia). cbn [bind fst snd].
  rewrite get_be_app by (cbn; lia). cbn [bind fst snd].
  rewrite get_be_app by (apply duration_to_wire_lt). cbn [bind fst snd].
  rewrite get_be_app by (apply duration_to_wire_lt). cbn [bind fst snd].
  rewrite get_token_app by assumption. cbn [bind fst snd].
  rewrite get_mime_app by assumption. cbn [bind fst snd].
  rewrite get_mime_app by assumption. cbn [bind fst snd].
  rewrite get_metadata_block by assumption. cbn [bind fst snd].
  rewrite !duration_wire. reflexivity.
Qed.

(** ** Panicking setups *)
Lemma get_mime_255 : forall m rest, len m = 255 -> get_mime ((len m :: m) ++ rest) = Panic.
Proof. intros m rest H. cbn [app get_mime]. rewrite H. reflexivity. Qed.
Lemma get_token_wrap : forall t rest, len t = 65534 \/ len t = 65535 ->
  get_token (0 <? len t) (token_block t ++ rest) = Panic.
Proof.
  intros t rest H. unfold get_token, token_block.
  destruct H as [H|H]; rewrite H; cbn [N.ltb N.compare];
    rewrite <- app_assoc, get_be_app by (cbn; lia); reflexivity.
Qed.
Lemma decode_wire_setup_panic : forall f extra,
  su_major f < 65536 -> su_minor f < 65536 ->
  len (su_metadata f) < 16777216 ->
  len (su_token f) = 65534 \/ len (su_token f) = 65535
  \/ (len (su_token f) < 65534 /\ len (su_mime_md f) = 255)
  \/ (len (su_token f) < 65534 /\ len (su_mime_md f) < 255 /\ len (su_mime_data f) = 255) ->
  frame_of_bytes (wire_setup f ++ extra) = Panic.
Proof.
  intros f extra H1 H2 Hm Hc. unfold wire_setup.
  rewrite <- app_assoc, frame_of_wire. unfold decode_by_type.
  rewrite header_type by (try lia; apply setup_flags_lt).
  cbn [N.eqb Pos.eqb FrameTypeSetup]. unfold decode_setup.
  rewrite header_flag by (try lia; apply setup_flags_lt).
  destruct (setup_flags_check f) as (-> & -> & ->); [lia|lia|].
  rewrite <- !app_assoc.
  rewrite get_be_app by (cbn; lia). cbn [bind fst snd].
  rewrite get_be_app by (cbn; lia). cbn [bind fst snd].
  rewrite get_be_app by (apply duration_to_wire_lt). cbn [bind fst snd].
  rewrite get_be_app by (apply duration_to_wire_lt). cbn [bind fst snd].
  destruct Hc as [Hc|[Hc|[[Ht Hc]|[Ht [Hm1 Hc]]]]].
  - rewrite get_token_wrap by auto. reflexivity.
  - rewrite get_token_wrap by auto. reflexivity.
  - rewrite get_token_app by assumption. cbn [bind fst snd].
    rewrite get_mime_255 by assumption. reflexivity.
  - rewrite get_token_app by assumption. cbn [bind fst snd].
    rewrite get_mime_app by assumption. cbn [bind fst snd].
    rewrite get_mime_255 by assumption. reflexivity.
Qed.

(** ** Short buffers *)
(** [trunc e fixed w]: into a buffer shorter than [w] the encoder writes the
    prefix of [w] that fits if the first [fixed] bytes do, and panics otherwise. *)
Definition trunc (e : bytes -> res bytes) (fixed : N) (w : bytes) : Prop :=
  forall buf, len buf < len w ->
    e buf = if fixed <=? len buf then Ok (takeN (len buf) w) else Panic.
Lemma trunc_copy_end : forall d, trunc (copy_end d) 0 d.
Proof.
  intros d buf H. unfold copy_end, copy_into. rewrite dropN_all by lia.
  rewrite app_nil_r. destruct (N.leb_spec 0 (len buf)); [reflexivity|lia].
Qed.
Lemma trunc_put : forall bs k n w, trunc k n w -> n <= len w ->
  trunc (put bs k) (len bs + n) (bs ++ w).
Proof.
  intros bs k n w H Hn buf Hl. rewrite len_app in Hl. unfold put.
  destruct (N.leb_spec (len bs) (len buf)).
  - rewrite H by (rewrite len_dropN; lia). rewrite len_dropN.
    destruct (N.leb_spec n (len buf - len bs)), (N.leb_spec (len bs + n) (len buf)); try lia;
      cbn [bind]; auto. now rewrite takeN_app_ge.
  - destruct (N.leb_spec (len bs + n) (len buf)); [lia|reflexivity].
Qed.
Lemma trunc_copy_adv : forall bs k n w, trunc k n w -> n <= len w ->
  trunc (copy_adv bs (len bs) k) (len bs + n) (bs ++ w).
Proof.
  intros bs k n w H Hn buf Hl. rewrite len_app in Hl. unfold copy_adv.
  assert (Hlen : len (copy_into bs buf) = len buf).
  { unfold copy_into. rewrite len_app, len_takeN, len_dropN. lia. }
  rewrite Hlen.
  destruct (N.leb_spec (len bs) (len buf)).
  - rewrite copy_into_fits by lia. rewrite dropN_app_len, takeN_app_len.
    rewrite H by (rewrite len_dropN; lia). rewrite len_dropN.
    destruct (N.leb_spec n (len buf - len bs)), (N.leb_spec (len bs + n) (len buf)); try lia;
      cbn [bind]; auto. now rewrite takeN_app_ge.
  - destruct (N.leb_spec (len bs + n) (len buf)); [lia|reflexivity].
Qed.
Lemma trunc_metadata : forall md k n w, len md < 4294967296 -> trunc k n w -> n <= len w ->
  trunc (put_metadata md k) (len (md_block md) + n) (md_block md ++ w).
Proof.
  intros md k n w Hl H Hn. unfold put_metadata, md_block. rewrite u32_small by assumption.
  destruct (0 <? len md); [|exact H].
  rewrite <- app_assoc, len_app, <- N.add_assoc. apply trunc_put.
  - now apply trunc_copy_adv.
  - rewrite len_app. lia.
Qed.
Lemma trunc_payload : forall f, len (pl_metadata f) < 4294967296 ->
  trunc (encode_payload f) (6 + len (md_block (pl_metadata f))) (wire_payload f).
Proof.
  intros f H. rewrite <- (header_len (pl_stream f) 10 (payload_flags f)).
  rewrite <- (N.add_0_r (len (md_block _))).
  apply trunc_put; [apply trunc_metadata|]; auto using trunc_copy_end.
  - lia.
  - rewrite len_app. lia.
Qed.
Lemma trunc_error : forall f, trunc (encode_error f) 10 (wire_error f).
Proof.
  intros f. change 10 with (6 + (4 + 0)).
  rewrite <- (header_len (er_stream f) 11 0).
  replace 4 with (len (be 4 (er_code f))) at 1 by (now rewrite len_be).
  apply trunc_put; [apply trunc_put|]; auto using trunc_copy_end.
  - lia.
  - rewrite len_app. lia.
Qed.

(** ** Decoders on arbitrary input *)
Lemma flag_check_bit : forall f, flag_check f 256 = N.testbit f 8.
Proof.
  intros f. unfold flag_check. change 256 with (2 ^ 8).
  destruct (N.testbit f 8) eqn:E.
  - apply N.eqb_eq. apply N.bits_inj. intros i. rewrite N.land_spec.
    destruct (N.eq_dec i 8) as [->|Hn]; [now rewrite E, andb_true_r|].
    now rewrite N.pow2_bits_false by auto.
  - apply N.eqb_neq. intros H. apply (f_equal (fun x => N.testbit x 8)) in H.
    rewrite N.land_spec, E, N.pow2_bits_true in H. discriminate.
Qed.
Lemma h_flag_bit8 : forall h, len h = 6 -> N.testbit (h_flag h) 8 = N.testbit (unbe (dropN 4 h)) 8.
Proof.
  intros h Hl. unfold h_flag, h_n. rewrite takeN_all by (rewrite len_dropN; lia).
  rewrite N.land_spec. change (N.testbit 1023 8) with true. now rewrite andb_true_r.
Qed.

Lemma get_metadata_cases : forall has body,
  (exists md d, get_metadata has body = Ok (md, d) /\
     (if has then 3 <= len body /\ 3 + unbe (takeN 3 body) <= len body
                  /\ body = takeN 3 body ++ md ++ d /\ len md = unbe (takeN 3 body)
      else md = [] /\ d = body))
  \/ (get_metadata has body = Panic /\ has = true /\
      (len body < 3 \/ len body < 3 + unbe (takeN 3 body))).
Proof.
  intros [|] body; cbn [get_metadata].
  - unfold get_be. rewrite takeN_firstn. change (N.to_nat 3) with 3%nat.
    destruct (Nat.leb_spec 3 (List.length body)) as [H|H].
    + cbn [bind fst snd]. unfold split_at.
      assert (Hs : len (skipn 3 body) = len body - 3) by (unfold len; rewrite skipn_length; lia).
      rewrite Hs. set (u := unbe (firstn 3 body)).
      destruct (N.leb_spec u (len body - 3)) as [Hle|Hgt].
      * left. eexists _, _. split; [reflexivity|].
        assert (3 <= len body) by (unfold len; lia).
        split; [lia|]. split; [lia|]. split.
        -- rewrite take_drop. symmetry. apply firstn_skipn.
        -- rewrite len_takeN. rewrite Hs. lia.
      * right. split; [reflexivity|]. split; [reflexivity|]. right. unfold len in *. lia.
    + right. split; [reflexivity|]. split; [reflexivity|]. left. unfold len. lia.
  - left. exists [], body. auto.
Qed.

(** ** u24 *)
Lemma u24_bytes : forall v, v < 16777216 ->
  [u8 (N.shiftr v 16); u8 (N.shiftr v 8); u8 v] = be 3 v.
Proof.
  intros v H. rewrite !N.shiftr_div_pow2. unfold u8. cbn [be].
  change (256 ^ N.of_nat 2) with (2 ^ 16). change (256 ^ N.of_nat 1) with (2 ^ 8).
  change (256 ^ N.of_nat 0) with 1. now rewrite N.div_1_r.
Qed.
Lemma read_u24_be : forall v rest, v < 16777216 -> read_uint24 (be 3 v ++ rest) = Ok v.
Proof.
  intros v rest H. cbn [be app read_uint24]. rewrite !N.shiftl_mul_pow2.
  change (256 ^ N.of_nat 2) with 65536. change (256 ^ N.of_nat 1) with 256.
  change (256 ^ N.of_nat 0) with 1. change (2 ^ 16) with 65536. change (2 ^ 8) with 256.
  f_equal. lia.
Qed.
Lemma read_u24_unbe : forall a b c rest, read_uint24 (a :: b :: c :: rest) = Ok (unbe [a; b; c]).
Proof.
  intros. cbn [read_uint24]. rewrite !N.shiftl_mul_pow2. f_equal. unfold unbe. cbn [fold_left].
  change (2 ^ 16) with 65536. change (2 ^ 8) with 256. lia.
Qed.
