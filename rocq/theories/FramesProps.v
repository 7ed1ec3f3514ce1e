(** Property theorems C01-C08, C12, C13: frame codecs and 24-bit lengths. *)
From Verif Require Import Base BaseFacts FramesModel FramesProofs.
Local Ltac Zify.zify_post_hook ::= Z.div_mod_to_equations.

(** *** C01 *)
Theorem C01_header_round_trip : forall sid ty fg body,
  ty < 64 -> fg < 1024 ->
  exists h, parse_header (header_bytes sid ty fg ++ body) = Ok h
    /\ len h = 6
    /\ h_type h = ty /\ h_flag h = fg
    /\ h_stream_id h = sid mod 2 ^ 31.
Proof.
  intros sid ty fg body Ht Hf. exists (header_bytes sid ty fg).
  destruct (parse_header_app sid ty fg body) as [-> _].
  rewrite header_len, header_type, header_flag, header_stream by assumption. auto.
Qed.
Theorem C01_header_fields_in_range : forall h,
  h_stream_id h < 2 ^ 31 /\ h_type h < 64 /\ h_flag h < 1024.
Proof. exact header_fields_bounded. Qed.
(** The three fields of any 6 bytes, defined by arithmetic on the big-endian
    48-bit number, without masks and shifts. *)
Theorem C01_header_fields_exact : forall h, bytes_ok h -> len h = 6 ->
  h_stream_id h = unbe h / 2 ^ 16 mod 2 ^ 31
  /\ h_type h = unbe h mod 2 ^ 16 / 1024
  /\ h_flag h = unbe h mod 1024.
Proof.
  intros h Hok Hl. unfold h_stream_id, h_type, h_flag, h_n.
  rewrite land_31, type_bits, land_1023.
  rewrite (takeN_all _ 2) by (rewrite len_dropN; lia).
  assert (Hb : unbe h = unbe (takeN 4 h) * 65536 + unbe (dropN 4 h)).
  { rewrite <- (take_drop _ 4 h) at 1. rewrite unbe_app, len_dropN, Hl. reflexivity. }
  assert (Hd : unbe (dropN 4 h) < 65536).
  { pose proof (unbe_lt (dropN 4 h) (Forall_dropN _ _ _ _ Hok)) as H.
    rewrite len_dropN, Hl in H. exact H. }
  rewrite Hb. change (2 ^ 16) with 65536. change (2 ^ 31) with 2147483648. lia.
Qed.
Example C01_example :
  h_type (header_bytes 7 10 352) = 10 /\ h_flag (header_bytes 7 10 352) = 352
  /\ h_stream_id (header_bytes 4294967295 63 1023) = 2147483647.
Proof. repeat split; vm_compute; reflexivity. Qed.
Print Assumptions C01_header_round_trip.
Print Assumptions C01_header_fields_in_range.
Print Assumptions C01_header_fields_exact.

(** *** C02 *)
Theorem C02_request_n_round_trip : forall f,
  rn_stream f < 2 ^ 31 -> rn_n f < 2 ^ 32 ->
  exists bs, frame_to_bytes (FRequestN f) = Ok bs /\ frame_of_bytes bs = Ok (FRequestN f).
Proof.
  intros f H1 H2. exists (wire_request_n f). split.
  - apply writes_zeros; [apply writes_request_n|apply size_request_n_wire].
  - now apply decode_wire_request_n.
Qed.
Theorem C02_cancel_round_trip : forall f, cn_stream f < 2 ^ 31 ->
  exists bs, frame_to_bytes (FCancel f) = Ok bs /\ frame_of_bytes bs = Ok (FCancel f).
Proof.
  intros f H1. exists (wire_cancel f). split.
  - apply writes_zeros; [apply writes_cancel|apply size_cancel_wire].
  - now apply decode_wire_cancel.
Qed.
Theorem C02_error_round_trip : forall f,
  er_stream f < 2 ^ 31 -> er_code f < 2 ^ 32 -> 10 + len (er_data f) < 2 ^ 32 ->
  exists bs, frame_to_bytes (FError f) = Ok bs /\ frame_of_bytes bs = Ok (FError f).
Proof.
  intros f H1 H2 H3. exists (wire_error f). split.
  - apply writes_zeros; [apply writes_error|apply size_error_wire; exact H3].
  - now apply decode_wire_error.
Qed.
Example C02_example :
  (bs <- frame_to_bytes (FError {| er_stream := 3; er_code := 513; er_data := [104; 105] |}) ;;
   frame_of_bytes bs) = Ok (FError {| er_stream := 3; er_code := 513; er_data := [104; 105] |})
  /\ frame_to_bytes (FRequestN {| rn_stream := 5; rn_n := 300 |})
     = Ok [0; 0; 0; 5; 32; 0; 0; 0; 1; 44]
  /\ frame_to_bytes (FCancel {| cn_stream := 5 |}) = Ok [0; 0; 0; 5; 36; 0].
Proof. repeat split; vm_compute; reflexivity. Qed.
Print Assumptions C02_request_n_round_trip.
Print Assumptions C02_cancel_round_trip.
Print Assumptions C02_error_round_trip.

(** *** C03 *)
Theorem C03_payload_round_trip : forall f,
  pl_stream f < 2 ^ 31 -> len (pl_metadata f) < 2 ^ 24 ->
  9 + len (pl_metadata f) + len (pl_data f) < 2 ^ 32 ->
  exists bs, frame_to_bytes (FPayload f) = Ok bs /\ frame_of_bytes bs = Ok (FPayload f).
Proof.
  intros f H1 H2 H3. change (2 ^ 31) with 2147483648 in *. change (2 ^ 24) with 16777216 in *.
  change (2 ^ 32) with 4294967296 in *. exists (wire_payload f). split.
  - apply writes_zeros; [apply writes_payload; lia|now apply size_payload_wire].
  - now apply decode_wire_payload.
Qed.
Example C03_example :
  let f := {| pl_stream := 9; pl_metadata := [1; 2]; pl_data := [3];
              pl_follows := true; pl_complete := false; pl_next := true |} in
  frame_to_bytes (FPayload f) = Ok [0; 0; 0; 9; 41; 160; 0; 0; 2; 1; 2; 3]
  /\ frame_of_bytes [0; 0; 0; 9; 41; 160; 0; 0; 2; 1; 2; 3] = Ok (FPayload f).
Proof. split; vm_compute; reflexivity. Qed.
Print Assumptions C03_payload_round_trip.

(** *** C04 *)
(** What the receiver sees of a request, field by field. *)
Definition request_received (f g : request) : Prop :=
  rq_type g = rq_type f /\ rq_stream g = rq_stream f
  /\ rq_metadata g = rq_metadata f /\ rq_data g = rq_data f
  /\ rq_follows g = false
  /\ (rq_type f = 7 -> rq_complete g = rq_complete f)
  /\ (rq_type f <> 7 -> rq_complete g = true)
  /\ (rq_type f = 6 \/ rq_type f = 7 -> rq_initial g = rq_initial f)
  /\ (rq_type f = 4 \/ rq_type f = 5 -> rq_initial g = 1).
Theorem C04_request_round_trip : forall f,
  4 <= rq_type f <= 7 -> rq_stream f < 2 ^ 31 -> rq_initial f < 2 ^ 32 ->
  len (rq_metadata f) < 2 ^ 24 ->
  13 + len (rq_metadata f) + len (rq_data f) < 2 ^ 32 ->
  exists bs g, frame_to_bytes (FRequest f) = Ok bs /\ frame_of_bytes bs = Ok (FRequest g)
    /\ request_received f g.
Proof.
  intros f H0 H1 H2 H3 H4. change (2 ^ 31) with 2147483648 in *. change (2 ^ 24) with 16777216 in *.
  change (2 ^ 32) with 4294967296 in *. exists (wire_request f), (request_norm f). split; [|split].
  - apply writes_zeros; [apply writes_request; lia|now apply size_request_wire].
  - now apply decode_wire_request.
  - unfold request_received, request_norm; cbn.
    assert (Hc : rq_type f = 4 \/ rq_type f = 5 \/ rq_type f = 6 \/ rq_type f = 7) by lia.
    destruct Hc as [E|[E|[E|E]]]; rewrite E; cbn; repeat split; intros; auto; lia.
Qed.
(** Consequently the Follows flag of a request cannot be transmitted. *)
Theorem C04_follows_refuted : forall f,
  4 <= rq_type f <= 7 -> rq_stream f < 2 ^ 31 -> rq_initial f < 2 ^ 32 ->
  len (rq_metadata f) < 2 ^ 24 ->
  13 + len (rq_metadata f) + len (rq_data f) < 2 ^ 32 ->
  rq_follows f = true ->
  exists bs g, frame_to_bytes (FRequest f) = Ok bs /\ frame_of_bytes bs = Ok (FRequest g)
    /\ rq_follows g = false.
Proof.
  intros f H0 H1 H2 H3 H4 _. destruct (C04_request_round_trip f H0 H1 H2 H3 H4)
    as (bs & g & Hb & Hg & Hr). exists bs, g. unfold request_received in Hr. tauto.
Qed.
Example C04_example :
  let f := {| rq_type := 7; rq_stream := 9; rq_metadata := [1]; rq_data := [3];
              rq_follows := true; rq_complete := true; rq_initial := 4096 |} in
  (bs <- frame_to_bytes (FRequest f) ;; frame_of_bytes bs)
  = Ok (FRequest {| rq_type := 7; rq_stream := 9; rq_metadata := [1]; rq_data := [3];
              rq_follows := false; rq_complete := true; rq_initial := 4096 |}).
Proof. vm_compute; reflexivity. Qed.
Print Assumptions C04_request_round_trip.
Print Assumptions C04_follows_refuted.

(** *** C05 *)
Definition setup_bounded (f : setup) : Prop :=
  su_major f < 2 ^ 16 /\ su_minor f < 2 ^ 16
  /\ len (su_metadata f) < 2 ^ 24
  /\ len (su_mime_md f) <= 254 /\ len (su_mime_data f) <= 254
  /\ 25 + len (su_metadata f) + 2 * len (su_token f) + len (su_data f)
     + len (su_mime_md f) + len (su_mime_data f) < 2 ^ 32.
Definition duration_received (sent got : Z) : Prop :=
  got = ((sent mod 2 ^ 32) / 10 ^ 6 * 10 ^ 6)%Z.
(** Everything but the data and the durations is preserved. *)
Definition setup_received (f g : setup) : Prop :=
  su_major g = su_major f /\ su_minor g = su_minor f
  /\ su_token g = su_token f
  /\ su_mime_md g = su_mime_md f /\ su_mime_data g = su_mime_data f
  /\ su_metadata g = su_metadata f /\ su_lease g = su_lease f
  /\ duration_received (su_keepalive f) (su_keepalive g)
  /\ duration_received (su_lifetime f) (su_lifetime g).
Lemma setup_to_bytes : forall f, setup_bounded f -> len (su_token f) < 65536 ->
  frame_to_bytes (FSetup f) = Ok (wire_setup f ++ zeros (len (su_token f))).
Proof.
  intros f (H1 & H2 & H3 & H4 & H5 & H6) Ht.
  change (2 ^ 24) with 16777216 in *. change (2 ^ 32) with 4294967296 in *.
  unfold frame_to_bytes. cbn [encode_frame size_frame]. rewrite size_setup_wire by assumption.
  apply writes_zeros_more. apply writes_setup; lia.
Qed.
Theorem C05_setup_round_trip : forall f, setup_bounded f -> su_token f = [] ->
  exists bs g, frame_to_bytes (FSetup f) = Ok bs /\ frame_of_bytes bs = Ok (FSetup g)
    /\ setup_received f g /\ su_data g = su_data f.
Proof.
  intros f Hb Ht. exists (wire_setup f), (setup_norm f []).
  pose proof (setup_to_bytes f Hb) as E. rewrite Ht in E. cbn in E. rewrite app_nil_r in E.
  destruct Hb as (H1 & H2 & H3 & H4 & H5 & H6).
  change (2 ^ 24) with 16777216 in *. change (2 ^ 16) with 65536 in *.
  split; [apply E; lia|]. split.
  - rewrite <- (app_nil_r (wire_setup f)). apply decode_wire_setup; rewrite ?Ht; cbn; lia.
  - split; [|unfold setup_norm; cbn; apply app_nil_r].
    unfold setup_received, setup_norm, duration_received; cbn. auto 10.
Qed.
Theorem C05_duration_exact_iff : forall sent got, duration_received sent got ->
  (got = sent <-> (0 <= sent < 2 ^ 32)%Z /\ (sent mod 10 ^ 6 = 0)%Z).
Proof.
  intros sent got ->. change (2 ^ 32)%Z with 4294967296%Z. change (10 ^ 6)%Z with 1000000%Z. lia.
Qed.
(** The defaults of 20 s and 90 s are not among them. *)
Theorem C05_default_durations_refuted :
  forall got, duration_received 20000000000 got -> got = 2820000000%Z.
Proof. intros got ->. reflexivity. Qed.
Example C05_example :
  let f := {| su_major := 1; su_minor := 0; su_keepalive := 4000000000%Z;
              su_lifetime := 90000000000%Z; su_token := []; su_mime_md := [97; 47; 98];
              su_mime_data := [99]; su_metadata := [5]; su_data := [6; 7]; su_lease := true |} in
  setup_bounded f /\
  (bs <- frame_to_bytes (FSetup f) ;; frame_of_bytes bs)
  = Ok (FSetup {| su_major := 1; su_minor := 0; su_keepalive := 4000000000%Z;
              su_lifetime := 4100000000%Z; su_token := []; su_mime_md := [97; 47; 98];
              su_mime_data := [99]; su_metadata := [5]; su_data := [6; 7]; su_lease := true |}).
Proof. split; [unfold setup_bounded; cbn; lia|vm_compute; reflexivity]. Qed.
Print Assumptions C05_setup_round_trip.
Print Assumptions C05_duration_exact_iff.
Print Assumptions C05_default_durations_refuted.

(** *** C06 *)
Theorem C06_setup_token_grows_data : forall f, setup_bounded f -> len (su_token f) <= 65533 ->
  exists bs g, frame_to_bytes (FSetup f) = Ok bs /\ frame_of_bytes bs = Ok (FSetup g)
    /\ setup_received f g
    /\ su_data g = su_data f ++ repeat 0 (List.length (su_token f)).
Proof.
  intros f Hb Ht. exists (wire_setup f ++ zeros (len (su_token f))).
  exists (setup_norm f (zeros (len (su_token f)))).
  split; [apply setup_to_bytes; [assumption|lia]|].
  destruct Hb as (H1 & H2 & H3 & H4 & H5 & H6).
  change (2 ^ 24) with 16777216 in *. change (2 ^ 16) with 65536 in *.
  split; [apply decode_wire_setup; lia|].
  split; [unfold setup_received, setup_norm, duration_received; cbn; auto 10|].
  unfold setup_norm, zeros; cbn. now rewrite len_length.
Qed.
Theorem C06_setup_decoder_panics : forall f,
  su_major f < 2 ^ 16 -> su_minor f < 2 ^ 16 -> len (su_metadata f) < 2 ^ 24 ->
  len (su_mime_md f) <= 255 -> len (su_mime_data f) <= 255 -> len (su_token f) < 2 ^ 16 ->
  25 + len (su_metadata f) + 2 * len (su_token f) + len (su_data f)
     + len (su_mime_md f) + len (su_mime_data f) < 2 ^ 32 ->
  65534 <= len (su_token f) \/ len (su_mime_md f) = 255 \/ len (su_mime_data f) = 255 ->
  exists bs, frame_to_bytes (FSetup f) = Ok bs /\ frame_of_bytes bs = Panic.
Proof.
  intros f H1 H2 H3 H4 H5 H6 H7 Hc. change (2 ^ 24) with 16777216 in *.
  change (2 ^ 16) with 65536 in *. change (2 ^ 32) with 4294967296 in *.
  exists (wire_setup f ++ zeros (len (su_token f))). split.
  - unfold frame_to_bytes. cbn [encode_frame size_frame]. rewrite size_setup_wire by assumption.
    apply writes_zeros_more. apply writes_setup; lia.
  - apply decode_wire_setup_panic; try assumption.
    destruct (N.lt_ge_cases (len (su_token f)) 65534); [|lia].
    destruct (N.eq_dec (len (su_mime_md f)) 255); lia.
Qed.
Example C06_example :
  let f := {| su_major := 1; su_minor := 0; su_keepalive := 0%Z;
              su_lifetime := 0%Z; su_token := [9; 9]; su_mime_md := [97];
              su_mime_data := [99]; su_metadata := []; su_data := [6]; su_lease := false |} in
  setup_bounded f /\
  (bs <- frame_to_bytes (FSetup f) ;; frame_of_bytes bs)
  = Ok (FSetup {| su_major := 1; su_minor := 0; su_keepalive := 0%Z;
              su_lifetime := 0%Z; su_token := [9; 9]; su_mime_md := [97];
              su_mime_data := [99]; su_metadata := []; su_data := [6; 0; 0]; su_lease := false |}).
Proof. split; [unfold setup_bounded; cbn; lia|vm_compute; reflexivity]. Qed.
Example C06_panic_example :
  let f := {| su_major := 1; su_minor := 0; su_keepalive := 0%Z;
              su_lifetime := 0%Z; su_token := []; su_mime_md := repeat 97 255;
              su_mime_data := [99]; su_metadata := []; su_data := [6]; su_lease := false |} in
  len (su_mime_md f) = 255 /\
  (bs <- frame_to_bytes (FSetup f) ;; frame_of_bytes bs) = Panic.
Proof. split; vm_compute; reflexivity. Qed.
Print Assumptions C06_setup_token_grows_data.
Print Assumptions C06_setup_decoder_panics.

(** *** C07 *)
Definition frame_bounded (f : frame) : Prop :=
  match f with
  | FSetup s => 25 + len (su_metadata s) + 2 * len (su_token s) + len (su_data s)
      + len (su_mime_md s) + len (su_mime_data s) < 2 ^ 32
      /\ len (su_token s) < 2 ^ 16 /\ len (su_mime_md s) < 256 /\ len (su_mime_data s) < 256
  | FRequest r => 13 + len (rq_metadata r) + len (rq_data r) < 2 ^ 32
  | FPayload p => 9 + len (pl_metadata p) + len (pl_data p) < 2 ^ 32
  | FError e => 10 + len (er_data e) < 2 ^ 32
  | FRequestN _ | FCancel _ => True
  end.
Definition spare (f : frame) : N :=
  match f with FSetup s => len (su_token s) | _ => 0 end.
Theorem C07_encode_writes_size_bytes : forall f, frame_bounded f ->
  exists w, len w + spare f = size_frame f /\
    forall buf, size_frame f <= len buf -> encode_frame f buf = Ok (w ++ dropN (len w) buf).
Proof.
  intros f Hb. exists (wire f).
  destruct f as [s|r|r|c|p|e]; cbn [frame_bounded spare size_frame encode_frame wire] in *;
    change (2 ^ 32) with 4294967296 in *; change (2 ^ 16) with 65536 in *.
  - destruct Hb as (H1 & H2 & H3 & H4). rewrite size_setup_wire by assumption.
    split; [reflexivity|]. intros buf Hl. apply writes_setup; lia.
  - rewrite size_request_wire by assumption.
    split; [lia|]. intros buf Hl. apply writes_request; lia.
  - rewrite size_request_n_wire. split; [lia|]. intros buf Hl. apply writes_request_n; lia.
  - rewrite size_cancel_wire. split; [lia|]. intros buf Hl. apply writes_cancel; lia.
  - rewrite size_payload_wire by assumption.
    split; [lia|]. intros buf Hl. apply writes_payload; lia.
  - rewrite size_error_wire by assumption.
    split; [lia|]. intros buf Hl. apply writes_error; lia.
Qed.
Example C07_example :
  encode_frame (FPayload {| pl_stream := 1; pl_metadata := [8]; pl_data := [9];
    pl_follows := false; pl_complete := true; pl_next := true |}) (repeat 255 14)
  = Ok ([0; 0; 0; 1; 41; 96; 0; 0; 1; 8; 9] ++ [255; 255; 255]).
Proof. vm_compute; reflexivity. Qed.
Print Assumptions C07_encode_writes_size_bytes.

(** *** C08 *)
Theorem C08_payload_short_buffer : forall f buf,
  9 + len (pl_metadata f) + len (pl_data f) < 2 ^ 32 ->
  len buf < size_frame (FPayload f) ->
  exists full, frame_to_bytes (FPayload f) = Ok full /\
  let fixed := if 0 <? len (pl_metadata f) then 9 + len (pl_metadata f) else 6 in
  (fixed <= len buf -> encode_frame (FPayload f) buf = Ok (takeN (len buf) full)) /\
  (len buf < fixed -> encode_frame (FPayload f) buf = Panic).
Proof.
  intros f buf H Hl. change (2 ^ 32) with 4294967296 in *. cbn [size_frame encode_frame] in *.
  exists (wire_payload f). split.
  - apply writes_zeros; [apply writes_payload; lia|now apply size_payload_wire].
  - rewrite size_payload_wire in Hl by assumption.
    pose proof (trunc_payload f ltac:(lia) buf Hl) as E. rewrite len_md_block in E.
    destruct (N.ltb_spec 0 (len (pl_metadata f))) as [Hp|Hz]; cbv zeta; split; intros Hf;
      rewrite E.
    + destruct (N.leb_spec (6 + (3 + len (pl_metadata f))) (len buf)); [reflexivity|lia].
    + destruct (N.leb_spec (6 + (3 + len (pl_metadata f))) (len buf)); [lia|reflexivity].
    + destruct (N.leb_spec (6 + 0) (len buf)); [reflexivity|lia].
    + destruct (N.leb_spec (6 + 0) (len buf)); [lia|reflexivity].
Qed.
Theorem C08_error_short_buffer : forall f buf,
  10 + len (er_data f) < 2 ^ 32 ->
  len buf < size_frame (FError f) ->
  exists full, frame_to_bytes (FError f) = Ok full /\
  (10 <= len buf -> encode_frame (FError f) buf = Ok (takeN (len buf) full)) /\
  (len buf < 10 -> encode_frame (FError f) buf = Panic).
Proof.
  intros f buf H Hl. change (2 ^ 32) with 4294967296 in *. cbn [size_frame encode_frame] in *.
  exists (wire_error f). split.
  - apply writes_zeros; [apply writes_error|now apply size_error_wire].
  - rewrite size_error_wire in Hl by assumption.
    rewrite (trunc_error f buf Hl).
    destruct (N.leb_spec 10 (len buf)); split; intros; auto; lia.
Qed.
Example C08_example :
  let f := {| pl_stream := 1; pl_metadata := [8]; pl_data := [9; 10];
              pl_follows := false; pl_complete := true; pl_next := true |} in
  encode_frame (FPayload f) (repeat 0 11) = Ok [0; 0; 0; 1; 41; 96; 0; 0; 1; 8; 9]
  /\ encode_frame (FPayload f) (repeat 0 9) = Panic
  /\ size_frame (FPayload f) = 12.
Proof. repeat split; vm_compute; reflexivity. Qed.
Print Assumptions C08_payload_short_buffer.
Print Assumptions C08_error_short_buffer.

(** *** C12 *)
(** The metadata flag is bit 8 of the second header word. *)
Definition spec_has_md (h : bytes) : bool := N.testbit (unbe (dropN 4 h)) 8.
Definition spec_md_short (body : bytes) : Prop :=
  len body < 3 \/ len body < 3 + unbe (takeN 3 body).
Theorem C12_payload_decode_exact : forall h body, len h = 6 ->
  (decode_payload h body = Panic <-> spec_has_md h = true /\ spec_md_short body)
  /\ (forall e, decode_payload h body <> Err e)
  /\ (forall p, decode_payload h body = Ok p ->
        if spec_has_md h
        then body = takeN 3 body ++ pl_metadata p ++ pl_data p
             /\ len (pl_metadata p) = unbe (takeN 3 body)
        else pl_metadata p = [] /\ pl_data p = body).
Proof.
  intros h body Hh. unfold decode_payload, FlagMetadata, spec_has_md, spec_md_short.
  rewrite flag_check_bit, h_flag_bit8 by assumption.
  set (has := N.testbit _ 8).
  destruct (get_metadata_cases has body) as [(md & d & -> & Hc)|(-> & Hh1 & Hc)]; cbn [bind].
  - split; [|split].
    + split; [discriminate|]. intros [Hh1 Hs]. rewrite Hh1 in Hc. lia.
    + discriminate.
    + intros p [= <-]. cbn [fst snd pl_metadata pl_data].
      destruct has; [|tauto]. destruct Hc as (_ & _ & H1 & H2). auto.
  - split; [|split]; [tauto|discriminate|discriminate].
Qed.
Theorem C12_request_decode_exact : forall h body, len h = 6 ->
  let skip := if (h_type h =? 6) || (h_type h =? 7) then 4 else 0 in
  let rest := dropN skip body in
  (decode_request h body = Panic <->
     len body < skip \/ (spec_has_md h = true /\ spec_md_short rest))
  /\ (forall e, decode_request h body <> Err e)
  /\ (forall p, decode_request h body = Ok p ->
        if spec_has_md h
        then rest = takeN 3 rest ++ rq_metadata p ++ rq_data p
             /\ len (rq_metadata p) = unbe (takeN 3 rest)
        else rq_metadata p = [] /\ rq_data p = rest).
Proof.
  intros h body Hh skip rest. unfold decode_request, FlagMetadata, spec_has_md, spec_md_short.
  rewrite flag_check_bit, h_flag_bit8 by assumption.
  set (has := N.testbit _ 8). cbv zeta. unfold has_initial, FrameTypeRequestStream, FrameTypeRequestChannel.
  match goal with |- context [bind ?x _] => assert (Hi : x
     = if skip <=? len body then
         Ok (if (h_type h =? 6) || (h_type h =? 7) then unbe (takeN 4 body) else 1, rest)
       else Panic) end.
  { unfold skip, rest, skip. destruct (_ || _).
    - unfold get_be. rewrite takeN_firstn, dropN_skipn. change (N.to_nat 4) with 4%nat.
      destruct (Nat.leb_spec 4 (List.length body)), (N.leb_spec 4 (len body));
        unfold len in *; try reflexivity; lia.
    - rewrite dropN_0. destruct (N.leb_spec 0 (len body)); [reflexivity|lia]. }
  rewrite Hi. clear Hi.
  destruct (N.leb_spec skip (len body)) as [Hs|Hs]; cbn [bind fst snd].
  - destruct (get_metadata_cases has rest) as [(md & d & -> & Hc)|(-> & Hh1 & Hc)]; cbn [bind].
    + split; [|split].
      * split; [discriminate|]. intros [H|[Hh1 H]]; [lia|]. rewrite Hh1 in Hc. lia.
      * discriminate.
      * intros p [= <-]. cbn [fst snd rq_metadata rq_data].
        destruct has; [|tauto]. destruct Hc as (_ & _ & H1 & H2). auto.
    + split; [|split]; [tauto|discriminate|discriminate].
  - split; [|split]; [tauto|discriminate|discriminate].
Qed.
Theorem C12_fixed_decode_exact : forall h body,
  (decode_request_n h body = Panic <-> len body < 4)
  /\ (decode_error h body = Panic <-> len body < 4)
  /\ (forall e, decode_request_n h body <> Err e /\ decode_error h body <> Err e)
  /\ (forall f, decode_error h body = Ok f -> er_data f = dropN 4 body).
Proof.
  intros h body. unfold decode_request_n, decode_error, get_be.
  rewrite dropN_skipn. change (N.to_nat 4) with 4%nat.
  destruct (Nat.leb_spec 4 (List.length body)); cbn [bind fst snd];
    unfold len; repeat split; try discriminate; try lia.
  intros f [= <-]. reflexivity.
Qed.
Example C12_example :
  decode_payload (header_bytes 1 10 256) [0; 0; 4; 1; 2; 3] = Panic
  /\ spec_has_md (header_bytes 1 10 256) = true /\ spec_md_short [0; 0; 4; 1; 2; 3]
  /\ decode_payload (header_bytes 1 10 256) [0; 0; 2; 1; 2; 3]
     = Ok {| pl_stream := 1; pl_metadata := [1; 2]; pl_data := [3];
             pl_follows := false; pl_complete := false; pl_next := false |}.
Proof. repeat split; try (vm_compute; reflexivity). right. vm_compute. reflexivity. Qed.
Print Assumptions C12_payload_decode_exact.
Print Assumptions C12_request_decode_exact.
Print Assumptions C12_fixed_decode_exact.

(** *** C13 *)
Theorem C13_u24_round_trip : forall v rest, v <= 16777215 ->
  exists b, write_uint24 v = Ok b /\ must_new_uint24 v = Ok b /\ len b = 3 /\ bytes_ok b
    /\ read_uint24 (b ++ rest) = Ok v.
Proof.
  intros v rest Hv. exists (be 3 v).
  unfold write_uint24, must_new_uint24, new_uint24, MaxUint24.
  destruct (N.ltb_spec 16777215 v); [lia|].
  rewrite u24_bytes by lia. rewrite read_u24_be by lia.
  repeat split; auto. apply be_ok.
Qed.
Theorem C13_u24_rejects_large : forall v, 16777215 < v ->
  write_uint24 v = Err "uint24 exceed max value: 16777215"%string /\ must_new_uint24 v = Panic.
Proof.
  intros v Hv. unfold write_uint24, must_new_uint24, new_uint24, MaxUint24.
  destruct (N.ltb_spec 16777215 v); [auto|lia].
Qed.
Theorem C13_u24_bytes_round_trip : forall a b c, is_byte a -> is_byte b -> is_byte c ->
  exists v, read_uint24 [a; b; c] = Ok v /\ v <= 16777215 /\ write_uint24 v = Ok [a; b; c].
Proof.
  intros a b c Ha Hb Hc. exists (unbe [a; b; c]). rewrite read_u24_unbe.
  assert (Hok : bytes_ok [a; b; c]) by (repeat constructor; assumption).
  pose proof (unbe_lt _ Hok) as H. change (256 ^ len [a; b; c]) with 16777216 in H.
  split; [reflexivity|]. split; [lia|].
  unfold write_uint24, new_uint24, MaxUint24.
  destruct (N.ltb_spec 16777215 (unbe [a; b; c])); [lia|].
  rewrite u24_bytes by assumption. f_equal. exact (be_unbe [a; b; c] Hok).
Qed.
Example C13_example : write_uint24 16777215 = Ok [255; 255; 255] /\ write_uint24 66051 = Ok [1; 2; 3]
  /\ read_uint24 [1; 2; 3] = Ok 66051.
Proof. repeat split; vm_compute; reflexivity. Qed.
Print Assumptions C13_u24_round_trip.
Print Assumptions C13_u24_rejects_large.
Print Assumptions C13_u24_bytes_round_trip.
