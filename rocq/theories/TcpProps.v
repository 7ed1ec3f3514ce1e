(** Property theorems C14-C19: frames over TCP and the session loop. *)
From Verif Require Import Base BaseFacts FramesModel FramesProofs FramesProps BufferModel
  BufferProofs TcpModel TcpProofs SessionProofs.
Local Ltac Zify.zify_post_hook ::= Z.div_mod_to_equations.

(** *** C14 *)
(** [stream_of bodies ++ tail] is what the peer wrote: length prefixed bodies
    and possibly part of a further one; [chunks] is any cutting of it. *)
Theorem C14_any_chunking : forall bodies tail chunks fuel,
  Forall body_ok bodies -> incomplete tail ->
  concat chunks = stream_of bodies ++ tail ->
  (List.length bodies < fuel)%nat ->
  read_raw_all fuel [] (map Chunk chunks) = Some (bodies, RawEof).
Proof.
  intros bodies tail chunks fuel Hb Ht H Hf.
  rewrite <- (app_nil_r (map Chunk chunks)).
  apply read_raw_all_ok with (tail := tail); auto. now left.
Qed.
(** A zero length is rejected, a body too short for a header is reported. *)
Theorem C14_bad_lengths : forall b rest chunks, len b < 6 ->
  concat chunks = framed b ++ rest ->
  exists e st, decoder_read [] (map Chunk chunks) = (RawErr e, st).
Proof.
  intros b rest chunks Hb H. unfold decoder_read.
  destruct (N.eq_dec (len b) 0) as [Hz|Hz].
  - apply len_0_nil in Hz. subst b. change (framed [] ++ rest) with ([0; 0; 0] ++ rest) in H.
    assert (Hs : forall chunks pending, pending ++ concat chunks = [0; 0; 0] ++ rest ->
      exists e st, scan pending (map Chunk chunks) = (ScanErr e, st)).
    { clear. induction chunks as [|c chunks IH]; intros pending H.
      - cbn [concat] in H. rewrite app_nil_r in H. subst pending. cbn [map scan].
        unfold do_split. rewrite len_app. change (len [0; 0; 0]) with 3.
        destruct (N.ltb_spec (3 + len rest) 3); [lia|]. cbn. eauto.
      - cbn [map scan]. unfold do_split.
        destruct (N.ltb_spec (len pending) 3) as [Hl|Hl].
        + apply IH. rewrite <- app_assoc. exact H.
        + destruct (prefix_cases _ _ _ _ H) as [(x & -> & _)|(y & Hy & E & _)].
          * cbn. eauto.
          * apply (f_equal len) in E. rewrite len_app in E. change (len [0; 0; 0]) with 3 in E.
            destruct y; [congruence|]. rewrite len_cons in E. lia. }
    destruct (Hs chunks [] H) as (e & st & ->). eauto.
  - destruct (scan_frame chunks [] b rest [] ltac:(lia) H) as (p & c & E & _).
    rewrite app_nil_r in E. rewrite E. rewrite raw_of_framed. unfold FrameHeaderLen.
    destruct (N.ltb_spec (len b) 6); [|lia]. eauto.
Qed.
Example C14_example :
  read_raw_all 5 [] [Chunk [0; 0]; Chunk [6; 1; 2; 3; 4; 5; 6; 0]; Chunk []; Chunk [0; 7; 9; 9; 9; 9; 9; 9; 9; 0; 0; 9; 1]]
  = Some ([[1; 2; 3; 4; 5; 6]; [9; 9; 9; 9; 9; 9; 9]], RawEof)
  /\ incomplete [0; 0; 9; 1] /\ Forall body_ok [[1; 2; 3; 4; 5; 6]; [9; 9; 9; 9; 9; 9; 9]].
Proof.
  split; [vm_compute; reflexivity|]. split.
  - exists [1; 2; 3; 4; 5; 6; 7; 8; 9], [2; 3; 4; 5; 6; 7; 8; 9]. cbn. repeat split; try lia. discriminate.
  - repeat constructor; unfold body_ok; cbn; lia.
Qed.
Print Assumptions C14_any_chunking.
Print Assumptions C14_bad_lengths.

(** *** C15 *)
(** Bytes [last] arriving together with end-of-stream never matter, whatever
    they are: only the frames complete before are returned. *)
Theorem C15_eof_with_data_lost : forall bodies tail chunks last fuel,
  Forall body_ok bodies -> incomplete tail ->
  concat chunks = stream_of bodies ++ tail ->
  (List.length bodies < fuel)%nat ->
  read_raw_all fuel [] (map Chunk chunks ++ [ChunkEof last]) = Some (bodies, RawEof).
Proof.
  intros bodies tail chunks last fuel Hb Ht H Hf.
  apply read_raw_all_ok with (tail := tail); auto. right. eauto.
Qed.
(** In particular a whole non-empty stream delivered this way is lost, while
    the same bytes followed by a separate end-of-stream are all returned. *)
Theorem C15_whole_stream_lost : forall bodies fuel, Forall body_ok bodies ->
  (List.length bodies < fuel)%nat ->
  read_raw_all fuel [] [ChunkEof (stream_of bodies)] = Some ([], RawEof)
  /\ read_raw_all fuel [] [Chunk (stream_of bodies)] = Some (bodies, RawEof).
Proof.
  intros bodies fuel Hb Hf. split.
  - apply (C15_eof_with_data_lost [] [] [] (stream_of bodies) fuel); auto.
    + apply incomplete_nil.
    + cbn. lia.
  - apply (C14_any_chunking bodies [] [stream_of bodies] fuel); auto.
    apply incomplete_nil.
Qed.
Example C15_example :
  read_raw_all 5 [] [ChunkEof (stream_of [[1; 2; 3; 4; 5; 6]; [6; 5; 4; 3; 2; 1]])] = Some ([], RawEof)
  /\ read_raw_all 5 [] [Chunk (stream_of [[1; 2; 3; 4; 5; 6]; [6; 5; 4; 3; 2; 1]])]
     = Some ([[1; 2; 3; 4; 5; 6]; [6; 5; 4; 3; 2; 1]], RawEof).
Proof. split; vm_compute; reflexivity. Qed.
Print Assumptions C15_eof_with_data_lost.
Print Assumptions C15_whole_stream_lost.

(** *** C16 *)
(** Frames a correct sender can send over TCP, and what the receiver gets. *)
Definition sendable (f : frame) : Prop :=
  size_frame f < 2 ^ 24 /\ frame_bounded f /\
  match f with
  | FSetup s => setup_bounded s /\ su_token s = []
  | FRequest r => 4 <= rq_type r <= 7 /\ rq_stream r < 2 ^ 31 /\ rq_initial r < 2 ^ 32
  | FRequestN r => rn_stream r < 2 ^ 31 /\ rn_n r < 2 ^ 32
  | FCancel c => cn_stream c < 2 ^ 31
  | FPayload p => pl_stream p < 2 ^ 31
  | FError e => er_stream e < 2 ^ 31 /\ er_code e < 2 ^ 32
  end.
Definition frame_received (f g : frame) : Prop :=
  match f, g with
  | FSetup s, FSetup s' => setup_received s s' /\ su_data s' = su_data s
  | FRequest r, FRequest r' => request_received r r'
  | FRequestN r, FRequestN r' => r' = r
  | FCancel c, FCancel c' => c' = c
  | FPayload p, FPayload p' => p' = p
  | FError e, FError e' => e' = e
  | _, _ => False
  end.
Lemma sendable_codec : forall f, sendable f ->
  exists body g, frame_to_bytes f = Ok body /\ len body = size_frame f /\ 6 <= len body
    /\ frame_of_bytes body = Ok g /\ frame_received f g.
Proof.
  intros f (Hs & Hb & Hf). change (2 ^ 24) with 16777216 in Hs.
  destruct f as [s|r|r|c|p|e].
  - destruct Hf as [Hsb Ht]. destruct (C05_setup_round_trip s Hsb Ht) as (bs & g & H1 & H2 & H3 & H4).
    exists bs, (FSetup g). split; [assumption|].
    assert (E : bs = wire_setup s).
    { pose proof (setup_to_bytes s Hsb) as E. rewrite Ht in E. cbn [len List.length] in E.
      rewrite E in H1 by (cbn; lia). injection H1 as <-. unfold zeros. cbn. now rewrite app_nil_r. }
    subst bs. cbn [size_frame] in *. destruct Hb as (B1 & _). rewrite size_setup_wire by assumption.
    rewrite Ht. change (len (@nil N)) with 0. split; [lia|]. split; [|cbn; auto].
    unfold wire_setup. rewrite len_app, header_len. lia.
  - destruct Hf as (F1 & F2 & F3). cbn [size_frame frame_bounded] in *.
    change (2 ^ 32) with 4294967296 in *. change (2 ^ 31) with 2147483648 in *.
    pose proof (size_request_wire r Hb) as Hsz.
    destruct (C04_request_round_trip r) as (bs & g & H1 & H2 & H3); auto.
    { change (2 ^ 24) with 16777216. unfold wire_request in Hsz.
      rewrite !len_app, header_len, len_md_block in Hsz.
      destruct (N.ltb_spec 0 (len (rq_metadata r))); lia. }
    exists bs, (FRequest g). split; [assumption|].
    assert (E : bs = wire_request r).
    { unfold frame_to_bytes in H1. cbn [encode_frame size_frame] in H1.
      rewrite (writes_zeros _ (wire_request r)) in H1; [now injection H1| |assumption].
      apply writes_request. lia. }
    subst bs. rewrite Hsz. split; [reflexivity|]. split; [|cbn; auto].
    unfold wire_request. rewrite len_app, header_len. lia.
  - destruct Hf as (F1 & F2). exists (wire_request_n r), (FRequestN r). refine (conj _ (conj _ (conj _ (conj _ eq_refl)))).
    + apply writes_zeros; [apply writes_request_n|apply size_request_n_wire].
    + symmetry. apply size_request_n_wire.
    + unfold wire_request_n. rewrite len_app, header_len. lia.
    + now apply decode_wire_request_n.
  - exists (wire_cancel c), (FCancel c). refine (conj _ (conj _ (conj _ (conj _ eq_refl)))).
    + apply writes_zeros; [apply writes_cancel|apply size_cancel_wire].
    + symmetry. apply size_cancel_wire.
    + unfold wire_cancel. rewrite header_len. lia.
    + now apply decode_wire_cancel.
  - cbn [frame_bounded] in Hb. change (2 ^ 32) with 4294967296 in *.
    pose proof (size_payload_wire p Hb) as Hsz. cbn [size_frame] in *.
    exists (wire_payload p), (FPayload p). refine (conj _ (conj _ (conj _ (conj _ eq_refl)))).
    + apply writes_zeros; [apply writes_payload; lia|assumption].
    + now symmetry.
    + unfold wire_payload. rewrite len_app, header_len. lia.
    + apply decode_wire_payload; [assumption|].
      unfold wire_payload in Hsz. rewrite !len_app, header_len, len_md_block in Hsz.
      destruct (N.ltb_spec 0 (len (pl_metadata p))); lia.
  - destruct Hf as (F1 & F2). cbn [frame_bounded] in Hb. change (2 ^ 32) with 4294967296 in *.
    pose proof (size_error_wire e Hb) as Hsz. cbn [size_frame] in *.
    exists (wire_error e), (FError e). refine (conj _ (conj _ (conj _ (conj _ eq_refl)))).
    + apply writes_zeros; [apply writes_error|assumption].
    + now symmetry.
    + unfold wire_error. rewrite len_app, header_len. lia.
    + now apply decode_wire_error.
Qed.
Lemma sendable_all : forall fs, Forall sendable fs ->
  exists bodies gs, Forall2 (fun f b => conn_write f = Ok [be 3 (len b); b]) fs bodies
    /\ Forall body_ok bodies /\ Forall2 (fun b g => frame_of_bytes b = Ok g) bodies gs
    /\ Forall2 frame_received fs gs.
Proof.
  induction 1 as [|f fs Hf _ (bs & gs & H1 & H2 & H3 & H4)].
  - exists [], []. auto.
  - destruct (sendable_codec f Hf) as (b & g & G1 & G2 & G3 & G4 & G5).
    destruct Hf as (Hs & _). change (2 ^ 24) with 16777216 in Hs.
    exists (b :: bs), (g :: gs). repeat split; constructor; auto.
    + now apply conn_write_ok.
    + unfold body_ok. change (2 ^ 24) with 16777216. lia.
Qed.
Theorem C16_frames_over_tcp : forall fs, Forall sendable fs ->
  exists writes gs, Forall2 (fun f w => conn_write f = Ok w) fs writes
    /\ Forall2 frame_received fs gs
    /\ forall chunks fuel, concat chunks = concat (map (@concat N) writes) ->
         (List.length fs < fuel)%nat ->
         read_frames_all fuel [] (map Chunk chunks) = Some (gs, ConnEof).
Proof.
  intros fs Hfs. destruct (sendable_all fs Hfs) as (bs & gs & H1 & H2 & H3 & H4).
  exists (map two_writes bs), gs. split; [|split; [assumption|]].
  - clear -H1. induction H1; constructor; auto.
  - intros chunks fuel Hc Hf. rewrite <- (app_nil_r (map Chunk chunks)).
    apply read_frames_all_ok with (bs := bs) (tail := []); auto.
    + now left.
    + apply incomplete_nil.
    + exact (eq_ind _ (fun n => (n < fuel)%nat) Hf _ (Forall2_len _ _ _ _ _ H1)).
    + cbn [app]. rewrite Hc, app_nil_r. unfold stream_of. rewrite map_map. f_equal.
      apply map_ext. intros b. unfold two_writes, framed. cbn. now rewrite app_nil_r.
Qed.
(** The 6-bit type field alone decides the kind. *)
Definition frame_type_of (f : frame) : N :=
  match f with
  | FSetup _ => 1 | FRequest r => rq_type r | FRequestN _ => 8 | FCancel _ => 9
  | FPayload _ => 10 | FError _ => 11
  end.
Theorem C16_kind_by_type : forall raw f, 6 <= len raw -> decode_raw raw = ConnFrame f ->
  frame_type_of f = unbe (takeN 2 (dropN 4 raw)) mod 2 ^ 16 / 1024.
Proof.
  intros raw f Hl H. unfold decode_raw, frame_of_bytes, parse_header in H.
  unfold FrameHeaderLen in H. destruct (N.leb_spec 6 (len raw)); [|lia]. cbn [bind] in H.
  assert (Ht : h_type (takeN 6 raw) = unbe (takeN 2 (dropN 4 raw)) mod 2 ^ 16 / 1024).
  { unfold h_type, h_n. rewrite type_bits.
    assert (E : takeN 2 (dropN 4 (takeN 6 raw)) = takeN 2 (dropN 4 raw)).
    { rewrite <- (take_drop _ 6 raw) at 2. rewrite dropN_app_le by (rewrite len_takeN; lia).
      now rewrite takeN_app_le by (rewrite len_dropN, len_takeN; lia). }
    rewrite E. change (2 ^ 16) with 65536. lia. }
  rewrite <- Ht. clear Ht. unfold decode_by_type in H.
  set (h := takeN 6 raw) in *. set (body := dropN 6 raw) in *.
  destruct (N.eqb_spec (h_type h) FrameTypeSetup) as [E|_].
  { destruct (decode_setup h body); cbn [bind] in H; try discriminate. injection H as <-. now rewrite E. }
  destruct ((h_type h =? FrameTypeRequestResponse) || (h_type h =? FrameTypeRequestFNF)
       || (h_type h =? FrameTypeRequestStream) || (h_type h =? FrameTypeRequestChannel)) eqn:E.
  { destruct (decode_request h body) as [r| |] eqn:Er; cbn [bind] in H; try discriminate. injection H as <-. cbn.
    unfold decode_request in Er.
    repeat match type of Er with
    | bind ?x _ = _ => destruct x; cbn [bind] in Er; try discriminate
    end. injection Er as <-. reflexivity. }
  clear E.
  destruct (N.eqb_spec (h_type h) FrameTypeRequestN) as [E|_].
  { destruct (decode_request_n h body); cbn [bind] in H; try discriminate. injection H as <-. now rewrite E. }
  destruct (N.eqb_spec (h_type h) FrameTypeCancel) as [E|_].
  { destruct (decode_cancel h body); cbn [bind] in H; try discriminate. injection H as <-. now rewrite E. }
  destruct (N.eqb_spec (h_type h) FrameTypePayload) as [E|_].
  { destruct (decode_payload h body); cbn [bind] in H; try discriminate. injection H as <-. now rewrite E. }
  destruct (N.eqb_spec (h_type h) FrameTypeError) as [E|_]; [|discriminate].
  destruct (decode_error h body); cbn [bind] in H; try discriminate. injection H as <-. now rewrite E.
Qed.
Theorem C16_unknown_type : forall raw, 6 <= len raw ->
  ~ In (h_type (takeN 6 raw)) [1; 4; 5; 6; 7; 8; 9; 10; 11] ->
  decode_raw raw = ConnErr "unknown frame".
Proof.
  intros raw Hl Hn. unfold decode_raw, frame_of_bytes, parse_header, FrameHeaderLen.
  destruct (N.leb_spec 6 (len raw)); [|lia]. cbn [bind]. unfold decode_by_type.
  set (t := h_type _) in *. cbn [In] in Hn.
  unfold FrameTypeSetup, FrameTypeRequestResponse, FrameTypeRequestFNF, FrameTypeRequestStream,
    FrameTypeRequestChannel, FrameTypeRequestN, FrameTypeCancel, FrameTypePayload, FrameTypeError.
  destruct (N.eqb_spec t 1), (N.eqb_spec t 4), (N.eqb_spec t 5), (N.eqb_spec t 6), (N.eqb_spec t 7),
    (N.eqb_spec t 8), (N.eqb_spec t 9), (N.eqb_spec t 10), (N.eqb_spec t 11); subst; cbn;
    try reflexivity; exfalso; apply Hn; rewrite ?e, ?e0; auto 20.
Qed.
Example C16_example :
  let f := FCancel {| cn_stream := 5 |} in
  let g := FPayload {| pl_stream := 9; pl_metadata := [1; 2]; pl_data := [3];
              pl_follows := true; pl_complete := false; pl_next := true |} in
  Forall sendable [f; g] /\
  conn_write f = Ok [[0; 0; 6]; [0; 0; 0; 5; 36; 0]] /\
  read_frames_all 9 [] [Chunk [0; 0; 6; 0; 0; 0; 5; 36]; Chunk [0; 0; 0; 12; 0; 0; 0; 9; 41; 160; 0; 0; 2; 1; 2; 3]]
  = Some ([f; g], ConnEof)
  /\ decode_raw [0; 0; 0; 5; 48; 0] = ConnErr "unknown frame".
Proof.
  cbv zeta. split; [|repeat split; vm_compute; reflexivity].
  repeat constructor; vm_compute; reflexivity.
Qed.
Print Assumptions C16_frames_over_tcp.
Print Assumptions C16_kind_by_type.
Print Assumptions C16_unknown_type.

(** *** C17 *)
Definition smem_ok (s : smem) : Prop := sm_start s <= sm_end s /\ sm_end s <= len (sm_mem s).
Definition smem_pending (s : smem) : bytes := sub_mem (sm_start s) (sm_end s - sm_start s) (sm_mem s).
(** The returned body is right at the moment it is returned ... *)
Theorem C17_intact_when_returned : forall s b rest, smem_ok s ->
  1 <= len b < 2 ^ 24 -> smem_pending s = framed b ++ rest ->
  exists v s', smem_token s = Some (v, s') /\ view_bytes s' v = b
    /\ smem_ok s' /\ smem_pending s' = rest.
Proof.
  intros s b rest [Ho1 Ho2] Hb H. change (2 ^ 24) with 16777216 in Hb.
  unfold smem_token. fold (smem_pending s). rewrite H, do_split_framed by assumption.
  eexists _, _. split; [reflexivity|]. cbn [view_bytes sm_gen sm_mem]. rewrite N.eqb_refl.
  assert (Hl : sm_end s - sm_start s = 3 + len b + len rest).
  { apply (f_equal len) in H. rewrite len_app, len_framed in H. unfold smem_pending, sub_mem in H.
    rewrite len_takeN, len_dropN in H. lia. }
  assert (Hm : dropN (sm_start s) (sm_mem s)
               = framed b ++ rest ++ dropN (sm_end s) (sm_mem s)).
  { rewrite app_assoc, <- H. unfold smem_pending, sub_mem.
    rewrite <- (take_drop _ (sm_end s - sm_start s) (dropN (sm_start s) (sm_mem s))) at 1.
    f_equal. rewrite dropN_dropN. f_equal. lia. }
  unfold sub_mem. split; [|split].
  - rewrite <- dropN_dropN, Hm. unfold framed. rewrite <- app_assoc.
    rewrite dropN_app_exact by now rewrite len_be. apply takeN_app_exact. lia.
  - unfold smem_ok. cbn. lia.
  - unfold smem_pending, sub_mem. cbn [sm_start sm_end sm_mem].
    rewrite <- dropN_dropN, Hm, dropN_app_exact by (rewrite len_framed; lia).
    apply takeN_app_exact. lia.
Qed.
(** ... and stays right as long as reads find room behind the pending bytes
    and less than half of the array is consumed ... *)
Theorem C17_intact_without_shift : forall s c g off n, smem_ok s ->
  sm_start s <= len (sm_mem s) / 2 -> sm_end s + len c <= len (sm_mem s) -> 0 < len c ->
  g <= sm_gen s -> off + n <= sm_end s ->
  view_bytes (smem_read s c) (g, (off, n)) = view_bytes s (g, (off, n)).
Proof.
  intros s c g off n [Ho1 Ho2] Hh Hr Hc Hg Hv. unfold smem_read.
  set (pend := sub_mem _ _ _).
  destruct (N.eqb_spec (sm_end s) (len (sm_mem s))); [lia|].
  destruct (N.ltb_spec (len (sm_mem s) / 2) (sm_start s)); [lia|].
  cbn [orb]. rewrite andb_false_r.
  destruct (N.eqb_spec (sm_end s) (len (sm_mem s))); [lia|].
  cbn [view_bytes sm_gen sm_mem sm_old]. destruct (g =? sm_gen s); [|reflexivity].
  apply sub_write_before; lia.
Qed.
(** ... but a frame filling more than half of the buffer is overwritten by the
    next read: the slice obtained for the first frame then shows bytes of the
    second. *)
Theorem C17_overwritten : forall b1 b2,
  4096 < 3 + len b1 <= 8192 -> len b1 <= len b2 -> 3 + len b2 <= 8192 ->
  exists v s1, smem_token (smem_read (smem_new 8192) (framed b1)) = Some (v, s1)
    /\ view_bytes s1 v = b1
    /\ view_bytes (smem_read s1 (framed b2)) v = takeN (len b1) b2.
Proof.
  intros b1 b2 H1 H2 H3.
  set (s0 := smem_read (smem_new 8192) (framed b1)).
  assert (Hs0 : s0 = {| sm_mem := write_at 0 (framed b1) (zeros 8192); sm_start := 0;
     sm_end := 3 + len b1; sm_gen := 0; sm_old := [] |}).
  { unfold s0, smem_read, smem_new. cbn [sm_start sm_end sm_mem sm_gen sm_old].
    rewrite !len_zeros. change (0 <? 0) with false. cbn [andb sm_end sm_mem].
    change (0 =? 8192) with false. rewrite !len_zeros. change (0 =? 8192) with false.
    cbn [sm_start sm_end sm_mem sm_gen sm_old].
    rewrite len_framed. reflexivity. }
  rewrite Hs0. clear s0 Hs0.
  set (m := write_at 0 (framed b1) (zeros 8192)).
  assert (Hlm : len m = 8192).
  { unfold m. rewrite len_write_at; rewrite ?len_zeros, ?len_framed; lia. }
  assert (Hp : sub_mem 0 (3 + len b1) m = framed b1).
  { unfold m. rewrite <- len_framed. apply sub_write_same. rewrite len_framed, len_zeros. lia. }
  destruct (C17_intact_when_returned
    {| sm_mem := m; sm_start := 0; sm_end := 3 + len b1; sm_gen := 0; sm_old := [] |} b1 [])
    as (v & s1 & E & Hv & _).
  - unfold smem_ok; cbn [sm_start sm_end sm_mem]. unfold bytes in *. rewrite Hlm. lia.
  - change (2 ^ 24) with 16777216. lia.
  - unfold smem_pending. cbn [sm_start sm_end sm_mem]. rewrite N.sub_0_r, app_nil_r. exact Hp.
  - exists v, s1. split; [exact E|]. split; [exact Hv|].
    set (s1' := {| sm_mem := m; sm_start := 0 + (len b1 + 3); sm_end := 3 + len b1;
                   sm_gen := 0; sm_old := [] |}).
    assert (E0 : smem_token {| sm_mem := m; sm_start := 0; sm_end := 3 + len b1;
                   sm_gen := 0; sm_old := [] |} = Some ((0, (0 + 3, len b1 + 3 - 3)), s1')).
    { unfold smem_token. cbn [sm_start sm_end sm_mem sm_gen sm_old].
      rewrite N.sub_0_r, Hp. rewrite <- (app_nil_r (framed b1)).
      rewrite do_split_framed by lia. reflexivity. }
    rewrite E0 in E.
    assert (Hvs : v = (0, (0 + 3, len b1 + 3 - 3)) /\ s1 = s1') by (split; congruence).
    destruct Hvs as [-> ->]. unfold s1'. clear E0 E Hv s1'.
    unfold smem_read. cbn [sm_start sm_end sm_mem sm_gen sm_old].
    rewrite Hlm. change (8192 / 2) with 4096.
    destruct (N.ltb_spec 0 (0 + (len b1 + 3))); [|lia].
    destruct (N.ltb_spec 4096 (0 + (len b1 + 3))); [|lia].
    rewrite orb_true_r. cbn [andb sm_start sm_end sm_mem sm_gen sm_old].
    replace (3 + len b1 - (0 + (len b1 + 3))) with 0 by lia.
    assert (Hs : forall o, sub_mem o 0 m = []) by (intros; apply takeN_0).
    assert (Hw : write_at 0 [] m = m).
    { unfold write_at. rewrite takeN_0. cbn [app]. apply dropN_0. }
    rewrite !Hs, !Hw.
    change (len (@nil N)) with 0. rewrite Hlm. change (0 =? 8192) with false.
    cbn [sm_start sm_end sm_mem sm_gen sm_old view_bytes]. rewrite N.eqb_refl.
    replace (len b1 + 3 - 3) with (len b1) by lia.
    rewrite sub_write_inside by (rewrite ?len_framed; lia).
    replace (0 + 3 - 0) with 3 by lia. rewrite raw_of_framed. reflexivity.
Qed.
Example C17_example : exists b1 b2 : bytes, 4096 < 3 + len b1 <= 8192 /\ len b1 <= len b2 /\ 3 + len b2 <= 8192
  /\ takeN (len b1) b2 <> b1.
Proof.
  exists (repeat 1 5000), (repeat 2 5000).
  rewrite !len_repeat. repeat split; try lia.
  rewrite takeN_all by (rewrite len_repeat; lia).
  intros H. apply (f_equal (hd 0)) in H. discriminate.
Qed.
Print Assumptions C17_intact_when_returned.
Print Assumptions C17_intact_without_shift.
Print Assumptions C17_overwritten.

(** *** C18 *)
(** Any number of senders, each with its own list of bodies; [order] says whose
    send runs next.  When sends do not overlap the reader gets exactly the
    bodies in that order. *)
Theorem C18_serialised_sends : forall senders order chunks fuel,
  Forall (Forall body_ok) senders ->
  concat chunks = run_writers (flat_map (fun i => [i; i]) order) (map (flat_map two_writes) senders) ->
  (List.length (picks order senders) < fuel)%nat ->
  read_raw_all fuel [] (map Chunk chunks) = Some (picks order senders, RawEof).
Proof.
  intros senders order chunks fuel Hb Hc Hf. rewrite run_serial in Hc.
  apply C14_any_chunking with (tail := []); auto.
  - clear Hc Hf chunks fuel. revert senders Hb.
    induction order as [|i order IH]; intros senders Hb; [constructor|]. cbn [picks].
    assert (Hp : (forall b, fst (pick i senders) = Some b -> body_ok b)
                 /\ Forall (Forall body_ok) (snd (pick i senders))).
    { clear IH order. revert i. induction senders as [|t ts IH]; intros i; [destruct i; cbn; (split; [discriminate|exact Hb])|].
      inversion Hb as [|? ? H1 H2]; subst. destruct i as [|i].
      - destruct t as [|b t]; cbn; [split; [discriminate|assumption]|].
        inversion H1; subst. split; [intros ? [= <-]; assumption|constructor; assumption].
      - destruct (IH H2 i) as [A B].
        assert (E : pick (S i) (t :: ts) = let (w, r) := pick i ts in (w, t :: r)) by (destruct t; reflexivity).
        rewrite E. destruct (pick i ts) as [o r]. cbn in *. split; auto. }
    destruct Hp as [A B]. destruct (pick i senders) as [[b|] r]; cbn in *.
    + constructor; [now apply A|now apply IH].
    + now apply IH.
  - apply incomplete_nil.
  - now rewrite app_nil_r.
Qed.
(** Two overlapping sends: both lengths, then both bodies.  The first frame
    the peer reads starts with the length bytes of the second. *)
Theorem C18_overlapping_sends_corrupt : forall b1 b2, body_ok b1 -> body_ok b2 ->
  exists sched, sched = [0; 1; 0; 1]%nat /\
  exists raw st, decoder_read [] [Chunk (run_writers sched [two_writes b1; two_writes b2])] = (RawFrame raw, st)
    /\ raw = takeN (len b1) (be 3 (len b2) ++ b1)
    /\ takeN 3 raw = be 3 (len b2).
Proof.
  intros b1 b2 H1 H2. exists [0; 1; 0; 1]%nat. split; [reflexivity|].
  unfold body_ok in H1, H2. change (2 ^ 24) with 16777216 in *.
  set (raw := takeN (len b1) (be 3 (len b2) ++ b1)).
  assert (Hlr : len raw = len b1).
  { unfold raw. rewrite len_takeN, len_app, len_be. lia. }
  assert (E : run_writers [0; 1; 0; 1]%nat [two_writes b1; two_writes b2]
    = framed raw ++ (dropN (len b1) (be 3 (len b2) ++ b1) ++ b2)).
  { cbn [run_writers pop_thread two_writes]. unfold framed. rewrite Hlr, <- app_assoc. f_equal.
    rewrite !app_assoc, app_nil_r. f_equal. unfold raw. now rewrite take_drop. }
  destruct (scan_frame [run_writers [0; 1; 0; 1]%nat [two_writes b1; two_writes b2]] [] raw
    (dropN (len b1) (be 3 (len b2) ++ b1) ++ b2) []) as (p & c & Es & _).
  { lia. }
  { cbn [concat app]. rewrite app_nil_r. exact E. }
  exists raw. unfold decoder_read. rewrite app_nil_r in Es. cbn [map] in Es. rewrite Es.
  rewrite raw_of_framed. unfold FrameHeaderLen. destruct (N.ltb_spec (len raw) 6); [lia|].
  eexists. split; [reflexivity|]. split; [reflexivity|].
  unfold raw. rewrite takeN_app_ge by (rewrite len_be; lia).
  rewrite takeN_app_exact by now rewrite len_be. reflexivity.
Qed.
Example C18_example :
  let a := [1; 1; 1; 1; 1; 1; 1] in let b := [2; 2; 2; 2; 2; 2] in
  body_ok a /\ body_ok b /\
  read_raw_all 9 [] [Chunk (run_writers [0; 1; 0; 1]%nat [two_writes a; two_writes b])]
    = Some ([[0; 0; 6; 1; 1; 1; 1]], RawEof) /\
  read_raw_all 9 [] [Chunk (run_writers [1; 1; 0; 0]%nat [two_writes a; two_writes b])]
    = Some ([b; a], RawEof).
Proof. repeat split; vm_compute; congruence. Qed.
Print Assumptions C18_serialised_sends.
Print Assumptions C18_overlapping_sends_corrupt.

(** *** C19 *)
Theorem C19_nothing_before_setup : forall input steps s,
  session_run (session_new true input) steps = Ok s ->
  ss_delivered s = [] \/ exists su rest, ss_delivered s = FSetup su :: rest.
Proof.
  intros input steps s E.
  pose proof (sess_run_inv _ _ _ _ _ (sess_inv_new true input) E) as Hi.
  destruct (si_queue _ _ _ Hi) as [[A B]|(_ & B & _)]; [|now left].
  destruct (ss_delivered s) as [|f del]; [now left|]. right. cbn in A. rewrite <- A in B.
  specialize (B eq_refl). cbn in B. destruct f; try discriminate. eauto.
Qed.
(** [input]: results of successive reads of the connection. *)
Theorem C19_in_order_no_loss_no_duplication : forall server input steps s,
  session_run (session_new server input) steps = Ok s ->
  exists rest, frames_of input = ss_delivered s ++ rest.
Proof.
  intros server input steps s E.
  pose proof (sess_run_inv _ _ _ _ _ (sess_inv_new server input) E) as Hi.
  destruct (si_input _ _ _ Hi) as (err & H1 & _).
  rewrite H1, frames_of_app, frames_of_map.
  destruct (si_queue _ _ _ Hi) as [[A B]|(_ & -> & _)]; [|eexists; reflexivity].
  rewrite <- A, <- app_assoc. eexists; reflexivity.
Qed.
Definition bad_first (input : list conn_read) : Prop :=
  match input with
  | [] => False
  | ConnFrame (FSetup _) :: _ => False
  | _ => True
  end.
Theorem C19_bad_first_ends_session : forall input steps s,
  bad_first input -> session_run (session_new true input) steps = Ok s ->
  ss_delivered s = [] /\ ss_reader s <> RLoop.
Proof.
  intros input steps s Hb E.
  pose proof (sess_run_inv _ _ _ _ _ (sess_inv_new true input) E) as Hi.
  destruct (si_input _ _ _ Hi) as (err & H1 & H2).
  destruct (si_queue _ _ _ Hi) as [[A B]|(_ & B1 & _ & _ & B2)].
  2:{ split; [assumption|]. intros C. rewrite C in B2. discriminate. }
  specialize (B eq_refl).
  destruct (ss_read s) as [|f fs].
  - apply app_eq_nil in A. split; [apply A|]. intros C. rewrite C in B.
    specialize (B eq_refl). discriminate.
  - exfalso. subst input. cbn in Hb. destruct f; try discriminate. tauto.
Qed.
(** Whenever the session has ended, the connection is closed and every frame
    read from it has been delivered (none if the first was not a Setup). *)
Theorem C19_complete_at_end : forall server input steps s,
  session_run (session_new server input) steps = Ok s -> ss_reader s = RDone ->
  ss_conn_closed s = true
  /\ exists err, input = map ConnFrame (ss_read s) ++ err ++ ss_input s /\ frames_of err = []
  /\ (ss_delivered s = ss_read s \/ (server = true /\ bad_first input /\ ss_delivered s = [])).
Proof.
  intros server input steps s E Hr.
  pose proof (sess_run_inv _ _ _ _ _ (sess_inv_new server input) E) as Hi.
  split; [now apply (si_closed _ _ _ Hi)|].
  destruct (si_input _ _ _ Hi) as (err & H1 & H2). exists err. split; [assumption|].
  split. { destruct H2 as [->|[_ [->|[e ->]]]]; reflexivity. }
  destruct (si_ddone _ _ _ Hi (si_done _ _ _ Hi Hr)) as [Hh _].
  destruct (si_queue _ _ _ Hi) as [[A _]|(-> & B & _ & (f & C & D) & _)].
  - left. now rewrite Hh, app_nil_r in A.
  - right. rewrite C in H1. cbn in H1. subst input. repeat split; auto.
    cbn. destruct f; auto. discriminate.
Qed.
(** The session machinery itself never panics, and however it is interrupted
    it can finish: the reader disposes of the buffer, the dispatcher drains
    it, and the connection is closed. *)
Theorem C19_session_can_end : forall server input steps,
  ~ In ConnPanic input ->
  exists s, session_run (session_new server input) steps = Ok s
  /\ exists more s', session_run s more = Ok s' /\ ss_reader s' = RDone.
Proof.
  intros server input steps Hp.
  destruct (sess_run_no_panic steps server input _ (sess_inv_new server input) Hp) as (s & E).
  exists s. split; [assumption|].
  pose proof (sess_run_inv _ _ _ _ _ (sess_inv_new server input) E) as Hi.
  assert (Ha : forall s, sess_inv server input s -> ss_reader s = RDisposed ->
     exists more s', session_run s more = Ok s' /\ ss_reader s' = RDone).
  { clear. intros s Hi Hr. destruct (ss_disp s) eqn:Ed.
    3:{ exists [SReader false]. cbn. rewrite Hr, Ed. cbn. eauto. }
    all: destruct (disp_drains _ _ _ _ Hi Hr ltac:(congruence) eq_refl) as (k & s1 & E1 & D1 & R1);
      exists (repeat SDisp k ++ [SReader false]); rewrite session_run_app, E1; cbn; rewrite R1, D1;
      cbn; eauto. }
  assert (Hx : forall s, sess_inv server input s -> ss_reader s = RExit ->
     exists more s', session_run s more = Ok s' /\ ss_reader s' = RDone).
  { clear -Ha. intros s Hi Hr.
    assert (E1 : exists s1, session_step s (SReader false) = Ok s1 /\ ss_reader s1 = RDisposed).
    { cbn. rewrite Hr. eauto. }
    destruct E1 as (s1 & E1 & R1).
    destruct (Ha s1) as (more & s' & E2 & R2); auto.
    { eapply sess_step_inv; eauto. }
    exists (SReader false :: more), s'. cbn [session_run]. rewrite E1. cbn [bind]. auto. }
  destruct (ss_reader s) eqn:Hr.
  4:{ now apply Ha. }
  3:{ now apply Hx. }
  3:{ exists [], s. auto. }
  all: assert (E1 : exists s1, session_step s SAbort = Ok s1 /\ ss_reader s1 = RExit)
         by (cbn; rewrite Hr; eauto);
    destruct E1 as (s1 & E1 & R1);
    destruct (Hx s1) as (more & s' & E2 & R2); auto;
    [eapply sess_step_inv; eauto|];
    exists (SAbort :: more), s'; cbn [session_run]; rewrite E1; cbn [bind]; auto.
Qed.
Definition C19_setup : setup :=
  {| su_major := 1; su_minor := 0; su_keepalive := 0%Z; su_lifetime := 0%Z; su_token := [];
     su_mime_md := []; su_mime_data := []; su_metadata := []; su_data := []; su_lease := false |}.
Example C19_example :
  let c n := FCancel {| cn_stream := n |} in
  let good := [ConnFrame (FSetup C19_setup); ConnFrame (c 3); ConnFrame (c 5); ConnEof] in
  let r := SReader false in
  (exists s, session_run (session_new true good) [SDisp; r; r; SDisp; r; r; r; SDisp; SDisp; SDisp; SDisp; r] = Ok s
     /\ ss_reader s = RDone /\ ss_delivered s = [FSetup C19_setup; c 3; c 5])
  /\ bad_first [ConnFrame (c 3); ConnFrame (c 5)]
  /\ (exists s, session_run (session_new true [ConnFrame (c 3); ConnFrame (c 5)]) [r; r; SDisp; r] = Ok s
     /\ ss_reader s = RDone /\ ss_delivered s = []).
Proof.
  cbv zeta. split; [|split]; [|exact I|];
    (eexists; split; [vm_compute; reflexivity|split; vm_compute; reflexivity]).
Qed.
Print Assumptions C19_nothing_before_setup.
Print Assumptions C19_in_order_no_loss_no_duplication.
Print Assumptions C19_bad_first_ends_session.
Print Assumptions C19_complete_at_end.
Print Assumptions C19_session_can_end.
