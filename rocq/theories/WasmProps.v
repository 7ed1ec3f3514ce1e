(** Properties C20-C24, C73: shared-memory framing and stream ids. *)
From Verif Require Import Base BaseFacts FramesModel FramesProofs FramesProps TcpModel TcpProofs TcpProps
  WasmModel WasmProofs.
Local Ltac Zify.zify_post_hook ::= Z.div_mod_to_equations.

(** *** C20: the host cuts what the guest signals into exactly the frames *)
Theorem C20_host_receives_batches : forall pre bodies rest,
  Forall (fun b => len b < 2 ^ 24) bodies ->
  host_receive (pre ++ stream_of bodies ++ rest) (len pre) (len (stream_of bodies))
  = (bodies, LoopDone).
Proof.
  intros pre bodies rest H. unfold host_receive, mem_read.
  destruct (N.leb_spec (len pre + len (stream_of bodies)) (len (pre ++ stream_of bodies ++ rest))) as [_|Hc].
  2:{ rewrite !len_app in Hc. lia. }
  rewrite dropN_app_len, takeN_app_len.
  rewrite <- (app_nil_r (stream_of bodies)).
  destruct (host_split_stream bodies [] H) as (fuel & _ & ->).
  now rewrite host_loop_nil, app_nil_r.
Qed.
(** A batch that stops inside a frame: the complete frames are queued; then,
    when the cut is inside the body, one frame padded with zeros is queued as
    well; then the host function panics. *)
Theorem C20_host_cut_batch_panics : forall bodies b t rest,
  Forall (fun b => len b < 2 ^ 24) bodies -> len b < 2 ^ 24 ->
  framed b = t ++ rest -> t <> [] -> rest <> [] ->
  host_split (stream_of bodies ++ t)
  = (bodies ++ (if len t <? 3 then [] else [dropN 3 t ++ zeros (len rest)]), LoopPanic).
Proof.
  intros bodies b t rest H Hb E Ht Hr. change (2 ^ 24) with 16777216 in *.
  destruct (host_split_stream bodies t H) as (fuel & Hf & ->).
  assert (Hl : len t + len rest = 3 + len b) by (rewrite <- len_app, <- E; apply len_framed).
  assert (0 < len rest) by (destruct rest; [congruence|rewrite len_cons; lia]).
  destruct fuel as [|fuel]; [destruct t; [congruence|cbn in Hf; lia]|].
  cbn [host_loop]. destruct t as [|x t'] eqn:Et; [congruence|]. rewrite <- Et in *. clear Et x t' Ht.
  destruct (N.ltb_spec (len t) 3).
  { reflexivity. }
  assert (Hy : exists y, t = be 3 (len b) ++ y).
  { unfold framed in E. symmetry in E.
    destruct (prefix_cases _ _ _ _ E) as [(y & -> & _)|(y & Hy & E' & _)]; [eauto|].
    exfalso. apply (f_equal len) in E'. rewrite len_app, len_be in E'.
    destruct y; [congruence|]. rewrite len_cons in E'. lia. }
  destruct Hy as (y & ->). rewrite takeN_app_exact, dropN_app_exact by now rewrite len_be.
  rewrite unbe_be_small by exact Hb. rewrite len_app, len_be in Hl. change (N.of_nat 3) with 3 in Hl.
  destruct (N.ltb_spec (len y) (len b)); [|lia].
  do 3 f_equal. rewrite copy_into_fits by (rewrite len_zeros; lia). f_equal.
  replace (zeros (len b)) with (zeros (len y) ++ zeros (len rest)).
  - apply dropN_app_exact. apply len_zeros.
  - unfold zeros. rewrite <- repeat_app. f_equal. lia.
Qed.
(** Guest frames, one signal each: the host queues exactly their encodings, in
    order, whatever else is in linear memory, and decoding them gives the
    frames sent. *)
Definition guest_sends (pre buf post : bytes) (f : frame) : option (list bytes * loop_end) :=
  match write_frame buf f with
  | Ok (buf', n) => Some (host_receive (pre ++ buf' ++ post) (len pre) n)
  | _ => None
  end.
Theorem C20_guest_frames_reach_host : forall f pre buf post,
  sendable f -> 3 + size_frame f <= len buf ->
  exists body g, guest_sends pre buf post f = Some ([body], LoopDone)
    /\ frame_of_bytes body = Ok g /\ frame_received f g.
Proof.
  intros f pre buf post Hf Hl.
  destruct (sendable_codec f Hf) as (body & g & H1 & H2 & H3 & H4 & H5).
  exists body, g. split; [|auto]. destruct Hf as (Hs & Hb & Hk). change (2 ^ 24) with 16777216 in *.
  destruct (C07_encode_writes_size_bytes f Hb) as (w & Hw & He).
  assert (Hsp : spare f = 0).
  { destruct f; try reflexivity. destruct Hk as [_ Hk]. cbn [spare]. now rewrite Hk. }
  assert (body = w).
  { unfold frame_to_bytes in H1. rewrite He in H1 by (rewrite len_zeros; lia).
    injection H1 as <-. rewrite dropN_all by (rewrite len_zeros; lia). apply app_nil_r. }
  subst w. unfold guest_sends. rewrite (write_frame_fits f body) by (try intros ? ?; try apply He; lia).
  f_equal.
  pose proof (C20_host_receives_batches pre [body] (dropN (3 + len body) buf ++ post)) as R.
  unfold stream_of in R. cbn [map concat] in R. rewrite app_nil_r, len_framed in R.
  rewrite <- app_assoc. apply R. constructor; [lia|constructor].
Qed.
(** A batch announced beyond the end of the guest's memory is ignored as a whole. *)
Theorem C20_out_of_range_ignored : forall mem ptr n, len mem < ptr + n -> host_receive mem ptr n = ([], LoopDone).
Proof. intros mem ptr n H. unfold host_receive, mem_read. replace (ptr + n <=? len mem) with false by (symmetry; now apply N.leb_gt). reflexivity. Qed.
Example C20_example :
  let f := FError {| er_stream := 5; er_code := 7; er_data := [1; 2] |} in
  sendable f
  /\ guest_sends [9; 9] (repeat 8 20) [9; 9] f = Some ([[0; 0; 0; 5; 44; 0; 0; 0; 0; 7; 1; 2]], LoopDone)
  /\ host_split [0; 0; 2; 1; 2; 0; 0; 3; 4] = ([[1; 2]; [4; 0; 0]], LoopPanic)
  /\ host_split [0; 0; 2; 1; 2; 0; 0] = ([[1; 2]], LoopPanic)
  /\ host_receive [0; 0; 1; 5; 0; 0] 1 6 = ([], LoopDone) /\ fst (host_receive [0; 0; 1; 5; 0; 0] 0 4) = [[5]].
Proof. cbv zeta. split; [repeat constructor; vm_compute; reflexivity|]. vm_compute. auto. Qed.
Print Assumptions C20_host_receives_batches.
Print Assumptions C20_out_of_range_ignored.
Print Assumptions C20_host_cut_batch_panics.
Print Assumptions C20_guest_frames_reach_host.

(** *** C21: the guest cuts what the host signals into exactly the frames,
    whatever bytes follow in its buffer *)
Theorem C21_guest_receives_batches : forall bodies stale,
  Forall body_ok bodies ->
  guest_receive (stream_of bodies ++ stale) (len (stream_of bodies)) = (bodies, LoopDone).
Proof.
  intros bodies stale H. unfold guest_receive. pose proof (stream_length bodies).
  replace (S (List.length (stream_of bodies ++ stale)))
    with (List.length bodies + S (List.length (stream_of bodies) - List.length bodies + List.length stale))%nat
    by (rewrite !app_length; unfold bytes in *; lia).
  rewrite guest_loop_stream by (assumption || lia).
  cbn [guest_loop]. rewrite N.add_0_l.
  destruct (N.leb_spec (len (stream_of bodies)) (len (stream_of bodies))); [|lia].
  now rewrite app_nil_r.
Qed.
(** A frame shorter than its 6-byte header kills the guest. *)
Theorem C21_guest_short_frame_panics : forall bodies b stale n,
  Forall body_ok bodies -> len b < 6 -> len (stream_of bodies) < n ->
  guest_receive (stream_of bodies ++ framed b ++ stale) n = (bodies, LoopPanic).
Proof.
  intros bodies b stale n H Hb Hn. unfold guest_receive. pose proof (stream_length bodies).
  replace (S (List.length (stream_of bodies ++ framed b ++ stale)))
    with (List.length bodies + S (List.length (stream_of bodies) - List.length bodies
          + List.length (framed b ++ stale)))%nat
    by (rewrite !app_length; unfold bytes in *; lia).
  rewrite guest_loop_stream by (assumption || lia).
  cbn [guest_loop]. rewrite N.add_0_l.
  destruct (N.leb_spec n (len (stream_of bodies))); [lia|].
  rewrite take3_framed, drop3_framed by lia. rewrite !len_app, len_framed.
  destruct (N.ltb_spec (3 + len b + len stale) 3); [lia|].
  destruct (N.ltb_spec (len b + len stale) (len b)); [lia|].
  rewrite takeN_app_len. unfold FrameHeaderLen. destruct (N.ltb_spec (len b) 6); [|lia].
  now rewrite app_nil_r.
Qed.
Example C21_example :
  guest_receive [0; 0; 6; 0; 0; 0; 5; 36; 0; 0; 0; 7; 0; 0; 0; 5; 40; 0; 1; 99; 99] 19
  = ([[0; 0; 0; 5; 36; 0]; [0; 0; 0; 5; 40; 0; 1]], LoopDone)
  /\ guest_receive [0; 0; 6; 0; 0; 0; 5; 36; 0; 0; 0; 2; 1; 1] 14 = ([[0; 0; 0; 5; 36; 0]], LoopPanic).
Proof. vm_compute. auto. Qed.
Print Assumptions C21_guest_receives_batches.
Print Assumptions C21_guest_short_frame_panics.

(** *** C22: host frames and the size of the guest's buffer *)
Definition host_sends (buf : bytes) (f : frame) : option (list bytes * loop_end) :=
  match write_frame buf f with
  | Ok (buf', n) => Some (guest_receive buf' n)
  | _ => None
  end.
Theorem C22_fitting_frame_reaches_guest : forall f buf,
  sendable f -> 3 + size_frame f <= len buf ->
  exists body g, host_sends buf f = Some ([body], LoopDone)
    /\ frame_of_bytes body = Ok g /\ frame_received f g.
Proof.
  intros f buf Hf Hl.
  destruct (sendable_codec f Hf) as (body & g & H1 & H2 & H3 & H4 & H5).
  exists body, g. split; [|auto]. destruct Hf as (Hs & Hb & Hk). change (2 ^ 24) with 16777216 in *.
  destruct (C07_encode_writes_size_bytes f Hb) as (w & Hw & He).
  assert (Hsp : spare f = 0).
  { destruct f; try reflexivity. destruct Hk as [_ Hk]. cbn [spare]. now rewrite Hk. }
  assert (body = w).
  { unfold frame_to_bytes in H1. rewrite He in H1 by (rewrite len_zeros; lia).
    injection H1 as <-. rewrite dropN_all by (rewrite len_zeros; lia). apply app_nil_r. }
  subst w. unfold host_sends. rewrite (write_frame_fits f body) by (try intros ? ?; try apply He; lia).
  f_equal.
  pose proof (C21_guest_receives_batches [body] (dropN (3 + len body) buf)) as R.
  unfold stream_of in R. cbn [map concat] in R. rewrite app_nil_r, len_framed in R.
  apply R. constructor; [|constructor]. unfold body_ok. change (2 ^ 24) with 16777216. lia.
Qed.
(** What an oversized payload leaves in a buffer. *)
Lemma write_oversized_payload : forall p buf,
  9 + len (pl_metadata p) + len (pl_data p) < 2 ^ 24 ->
  len buf < 3 + size_frame (FPayload p) ->
  3 + (if 0 <? len (pl_metadata p) then 9 + len (pl_metadata p) else 6) <= len buf ->
  exists full, frame_to_bytes (FPayload p) = Ok full /\ len full = size_frame (FPayload p)
    /\ len full < 2 ^ 24
    /\ write_frame buf (FPayload p) = Ok (be 3 (len full) ++ takeN (len buf - 3) full, 3 + len full).
Proof.
  intros p buf H Hl Hf. change (2 ^ 24) with 16777216 in *.
  assert (Hb : 3 <= len buf) by lia.
  destruct (C08_payload_short_buffer p (dropN 3 buf)) as (full & E & G & _).
  { change (2 ^ 32) with 4294967296. lia. }
  { rewrite len_dropN. lia. }
  exists full. split; [exact E|].
  assert (Hw : full = wire_payload p).
  { cbn [size_frame encode_frame] in E. unfold frame_to_bytes in E. cbn [size_frame encode_frame] in E.
    rewrite writes_zeros with (w := wire_payload p) in E; [congruence|apply writes_payload; lia|].
    apply size_payload_wire. lia. }
  assert (Hz : size_frame (FPayload p) = len full).
  { subst full. cbn [size_frame]. apply size_payload_wire. lia. }
  assert (Hlt : len full < 16777216).
  { subst full. unfold wire_payload. rewrite !len_app, header_len, len_md_block.
    destruct (N.ltb_spec 0 (len (pl_metadata p))); lia. }
  split; [now symmetry|]. split; [assumption|].
  unfold write_frame. rewrite Hz.
  rewrite copy_into_fits by (rewrite len_be; lia). rewrite len_be. change (N.of_nat 3) with 3.
  rewrite slice_from_ok by now rewrite len_be. cbn [bind].
  rewrite len_dropN in G. rewrite G by lia. cbn [bind].
  rewrite takeN_app_exact by now rewrite len_be. now rewrite u32_small by lia.
Qed.
(** An oversized payload is neither refused nor delivered: the encoder cuts the
    data, and the guest dies on the announced length. *)
Theorem C22_oversized_payload_kills_guest : forall p buf,
  9 + len (pl_metadata p) + len (pl_data p) < 2 ^ 24 ->
  len buf < 3 + size_frame (FPayload p) ->
  3 + (if 0 <? len (pl_metadata p) then 9 + len (pl_metadata p) else 6) <= len buf ->
  host_sends buf (FPayload p) = Some ([], LoopPanic).
Proof.
  intros p buf H Hl Hf. destruct (write_oversized_payload p buf H Hl Hf) as (full & _ & Hz & Hlt & W).
  change (2 ^ 24) with 16777216 in *. unfold host_sends. rewrite W. f_equal.
  unfold guest_receive. cbn [guest_loop].
  destruct (N.leb_spec (3 + len full) 0); [lia|].
  rewrite takeN_app_exact, dropN_app_exact by now rewrite len_be.
  rewrite unbe_be_small by exact Hlt. rewrite len_app, len_be, len_takeN. change (N.of_nat 3) with 3.
  destruct (N.ltb_spec (3 + N.min (len buf - 3) (len full)) 3); [lia|].
  destruct (N.ltb_spec (N.min (len buf - 3) (len full)) (len full)); [reflexivity|lia].
Qed.
Example C22_example :
  let p d := {| pl_stream := 5; pl_metadata := []; pl_data := d; pl_follows := false;
                pl_complete := true; pl_next := true |} in
  host_sends (repeat 7 12) (FPayload (p [1; 2; 3]))
    = Some ([[0; 0; 0; 5; 40; 96; 1; 2; 3]], LoopDone)
  /\ host_sends (repeat 7 12) (FPayload (p [1; 2; 3; 4])) = Some ([], LoopPanic).
Proof. vm_compute. auto. Qed.
Print Assumptions C22_fitting_frame_reaches_guest.
Print Assumptions C22_oversized_payload_kills_guest.

(** *** C73: oversized guest payloads: the host reads past the guest's buffer
    and delivers whatever lies behind it in guest memory as payload data *)
Theorem C73_oversized_guest_payload_leaks_memory : forall p pre buf post,
  9 + len (pl_metadata p) + len (pl_data p) < 2 ^ 24 ->
  len buf < 3 + size_frame (FPayload p) ->
  3 + (if 0 <? len (pl_metadata p) then 9 + len (pl_metadata p) else 6) <= len buf ->
  3 + size_frame (FPayload p) <= len buf + len post ->
  exists full, frame_to_bytes (FPayload p) = Ok full /\
  guest_sends pre buf post (FPayload p)
  = Some ([takeN (len buf - 3) full ++ takeN (len full - (len buf - 3)) post], LoopDone).
Proof.
  intros p pre buf post H Hl Hf Hp. destruct (write_oversized_payload p buf H Hl Hf) as (full & E & Hz & Hlt & W).
  change (2 ^ 24) with 16777216 in *. exists full. split; [exact E|].
  unfold guest_sends. rewrite W. f_equal.
  set (head := takeN (len buf - 3) full).
  assert (Hh : len head = len buf - 3) by (unfold head; rewrite len_takeN; lia).
  set (tl := takeN (len full - (len buf - 3)) post).
  assert (Ht : len tl = len full - (len buf - 3)) by (unfold tl; rewrite len_takeN; lia).
  assert (Hb : len (head ++ tl) = len full) by (rewrite len_app; lia).
  pose proof (C20_host_receives_batches pre [head ++ tl] (dropN (len full - (len buf - 3)) post)) as R.
  unfold stream_of in R. cbn [map concat] in R. rewrite app_nil_r, len_framed, Hb in R.
  rewrite <- R.
  - unfold framed. rewrite Hb. rewrite <- !app_assoc. unfold tl. now rewrite take_drop.
  - constructor; [|constructor]. rewrite Hb. exact Hlt.
Qed.
Example C73_example :
  let p := {| pl_stream := 5; pl_metadata := []; pl_data := [1; 2; 3; 4; 5]; pl_follows := false;
              pl_complete := true; pl_next := true |} in
  guest_sends [9] (repeat 7 12) [66; 77; 88] (FPayload p)
  = Some ([[0; 0; 0; 5; 40; 96; 1; 2; 3; 66; 77]], LoopDone).
Proof. vm_compute. auto. Qed.
Print Assumptions C73_oversized_guest_payload_leaks_memory.

(** *** C23, C24: stream ids *)
Definition ids (l : list (nat * (N * bool))) : list N := map (fun x => fst (snd x)) l.
Definition all_first (l : list (nat * (N * bool))) : Prop :=
  Forall (fun x => snd (snd x) = true) l.

Lemma nodup_nth : forall A (l : list A),
  (forall i j x, nth_error l i = Some x -> nth_error l j = Some x -> i = j) -> NoDup l.
Proof.
  intros A l H. apply NoDup_nth_error. intros i j Hi E.
  destruct (nth_error l i) as [x|] eqn:Ei.
  - apply (H i j x); congruence.
  - apply nth_error_None in Ei. lia.
Qed.
Lemma nth_error_ext : forall A (l m : list A), (forall i, nth_error l i = nth_error m i) -> l = m.
Proof.
  induction l as [|x l IH]; intros [|y m] H; auto.
  - discriminate (H 0%nat).
  - discriminate (H 0%nat).
  - f_equal.
    + pose proof (H 0%nat) as E. now injection E.
    + apply IH. intros i. apply (H (S i)).
Qed.
Lemma nth_ids : forall l i x, nth_error (ids l) i = Some x ->
  exists t b, nth_error l i = Some (t, (x, b)).
Proof.
  intros l i x H. unfold ids in H. rewrite nth_error_map in H.
  destruct (nth_error l i) as [[t [y b]]|]; [|discriminate]. injection H as <-. eauto.
Qed.
Lemma forall_nth : forall A (P : A -> Prop) l, (forall i x, nth_error l i = Some x -> P x) -> Forall P l.
Proof.
  intros A P l H. apply Forall_forall. intros x Hx. apply In_nth_error in Hx. destruct Hx as [i Hi]. eauto.
Qed.

(** Up to 2^30 calls by any goroutines in any order: distinct odd ids below 2^31,
    all flagged as belonging to the first loop. *)
Theorem C23_client_ids_distinct_odd : forall sched, len sched <= 2 ^ 30 ->
  exists l, run_ids (client_next 2) sched 0 = Some l /\ map fst l = sched
    /\ NoDup (ids l) /\ Forall (fun x => N.odd x = true /\ x < 2 ^ 31) (ids l) /\ all_first l.
Proof.
  intros sched H. change (2 ^ 30) with 1073741824 in *. change (2 ^ 31) with 2147483648.
  destruct (run_ids_nth (client_next 2) _ sched 0 18446744073709551615 client_step ltac:(lia))
    as (l & E & Hlen & Hi).
  exists l. split; [exact E|].
  assert (Hin : forall i t r, nth_error l i = Some (t, r) -> N.of_nat i < 1073741824).
  { intros i t r Hn. assert (i < List.length l)%nat by (apply nth_error_Some; congruence).
    unfold len in H. lia. }
  split; [|split; [|split]].
  - apply nth_error_ext. intros i. rewrite nth_error_map.
    destruct (nth_error l i) as [[t r]|] eqn:En; cbn [option_map fst].
    + symmetry. apply (Hi _ _ _ En).
    + symmetry. apply nth_error_None. apply nth_error_None in En. lia.
  - apply nodup_nth. intros i j x H1 H2.
    destruct (nth_ids _ _ _ H1) as (t1 & b1 & G1). destruct (nth_ids _ _ _ H2) as (t2 & b2 & G2).
    pose proof (Hin _ _ _ G1). pose proof (Hin _ _ _ G2).
    destruct (Hi _ _ _ G1) as [F1 _]. destruct (Hi _ _ _ G2) as [F2 _].
    apply (f_equal fst) in F1. apply (f_equal fst) in F2. cbn [fst] in F1, F2.
    rewrite N.mod_small in F1, F2 by lia. lia.
  - apply forall_nth. intros i x H1. destruct (nth_ids _ _ _ H1) as (t1 & b1 & G1).
    pose proof (Hin _ _ _ G1). destruct (Hi _ _ _ G1) as [F1 _]. apply (f_equal fst) in F1. cbn [fst] in F1.
    rewrite N.mod_small in F1 by lia. subst x. split; [|lia].
    replace (2 * (0 + N.of_nat i) + 1) with (1 + 2 * N.of_nat i) by lia.
    apply N.odd_add_mul_2.
  - apply forall_nth. intros i [t [x b]] G1. cbn [snd].
    pose proof (Hin _ _ _ G1). destruct (Hi _ _ _ G1) as [F1 _]. apply (f_equal snd) in F1. cbn [snd] in F1.
    subst b. apply N.leb_le. lia.
Qed.
(** The ids are 1, 3, 5, ... in call order; exactly the first 2^30 calls are
    flagged as first loop. *)
Theorem C23_client_ids_sequence : forall sched l i t x b,
  len sched < 2 ^ 64 - 1 -> run_ids (client_next 2) sched 0 = Some l ->
  nth_error l i = Some (t, (x, b)) ->
  (N.of_nat i < 2 ^ 30 -> x = 2 * N.of_nat i + 1) /\ (b = true <-> N.of_nat i < 2 ^ 30).
Proof.
  intros sched l i t x b Hs E G. change (2 ^ 64 - 1) with 18446744073709551615 in *.
  change (2 ^ 30) with 1073741824.
  destruct (run_ids_nth (client_next 2) _ sched 0 18446744073709551615 client_step ltac:(lia))
    as (l' & E' & Hlen & Hi).
  assert (l' = l) by congruence. subst l'. destruct (Hi _ _ _ G) as [F _].
  pose proof (f_equal fst F) as F1. pose proof (f_equal snd F) as F2. cbn [fst snd] in F1, F2.
  split; [lia|]. rewrite F2, N.leb_le. lia.
Qed.
(** Beyond that the same ids come round again, flagged as not the first loop. *)
Theorem C23_client_ids_wrap : forall sched i l t1 r1 t2 r2,
  len sched < 2 ^ 64 - 1 -> run_ids (client_next 2) sched 0 = Some l ->
  nth_error l i = Some (t1, r1) -> nth_error l (i + N.to_nat (2 ^ 30)) = Some (t2, r2) ->
  fst r2 = fst r1 /\ snd r2 = false /\ N.odd (fst r2) = true.
Proof.
  intros sched i l t1 r1 t2 r2 Hs E G1 G2. change (2 ^ 64 - 1) with 18446744073709551615 in *.
  destruct (run_ids_nth (client_next 2) _ sched 0 18446744073709551615 client_step ltac:(lia))
    as (l' & E' & Hlen & Hi).
  assert (l' = l) by congruence. subst l'.
  destruct (Hi _ _ _ G1) as [-> _]. destruct (Hi _ _ _ G2) as [-> _]. cbn [fst snd].
  rewrite Nat2N.inj_add, N2Nat.id. change (2 ^ 30) with 1073741824.
  split; [lia|]. split; [apply N.leb_gt; lia|].
  assert (K : forall k, N.odd ((2 * k + 1) mod 2147483648) = true).
  { intros k. replace ((2 * k + 1) mod 2147483648) with (1 + 2 * (k mod 1073741824)) by lia.
    apply N.odd_add_mul_2. }
  apply K.
Qed.
Example C23_example :
  run_ids (client_next 2) [0; 1; 0]%nat 0
  = Some [(0%nat, (1, true)); (1%nat, (3, true)); (0%nat, (5, true))]
  /\ run_ids (client_next 2) [0; 1]%nat 1073741823 = Some [(0%nat, (2147483647, true)); (1%nat, (1, false))].
Proof. vm_compute. auto. Qed.
Print Assumptions C23_client_ids_distinct_odd.
Print Assumptions C23_client_ids_sequence.
Print Assumptions C23_client_ids_wrap.

(** The server side reaches one call less: its ids are even and non-zero for
    2^30 - 1 calls ... *)
Theorem C24_server_ids_distinct_even : forall sched, len sched < 2 ^ 30 ->
  exists l, run_ids (server_next 2) sched 0 = Some l /\ map fst l = sched
    /\ NoDup (ids l) /\ Forall (fun x => N.even x = true /\ 0 < x < 2 ^ 31) (ids l) /\ all_first l.
Proof.
  intros sched H. change (2 ^ 30) with 1073741824 in *. change (2 ^ 31) with 2147483648.
  destruct (run_ids_nth (server_next 2) _ sched 0 9223372036854775807 server_step ltac:(lia))
    as (l & E & Hlen & Hi).
  exists l. split; [exact E|].
  assert (Hin : forall i t r, nth_error l i = Some (t, r) -> N.of_nat i + 1 < 1073741824).
  { intros i t r Hn. assert (i < List.length l)%nat by (apply nth_error_Some; congruence).
    unfold len in H. lia. }
  split; [|split; [|split]].
  - apply nth_error_ext. intros i. rewrite nth_error_map.
    destruct (nth_error l i) as [[t r]|] eqn:En; cbn [option_map fst].
    + symmetry. apply (Hi _ _ _ En).
    + symmetry. apply nth_error_None. apply nth_error_None in En. lia.
  - apply nodup_nth. intros i j x H1 H2.
    destruct (nth_ids _ _ _ H1) as (t1 & b1 & G1). destruct (nth_ids _ _ _ H2) as (t2 & b2 & G2).
    pose proof (Hin _ _ _ G1). pose proof (Hin _ _ _ G2).
    destruct (Hi _ _ _ G1) as [F1 _]. destruct (Hi _ _ _ G2) as [F2 _].
    apply (f_equal fst) in F1. apply (f_equal fst) in F2. cbn [fst] in F1, F2.
    rewrite N.mod_small in F1, F2 by lia. lia.
  - apply forall_nth. intros i x H1. destruct (nth_ids _ _ _ H1) as (t1 & b1 & G1).
    pose proof (Hin _ _ _ G1). destruct (Hi _ _ _ G1) as [F1 _]. apply (f_equal fst) in F1. cbn [fst] in F1.
    rewrite N.mod_small in F1 by lia. subst x. split; [|lia].
    change (2 * (0 + N.of_nat i + 1)) with (0 + 2 * (0 + N.of_nat i + 1)).
    apply N.even_add_mul_2.
  - apply forall_nth. intros i [t [x b]] G1. cbn [snd].
    pose proof (Hin _ _ _ G1). destruct (Hi _ _ _ G1) as [F1 _]. apply (f_equal snd) in F1. cbn [snd] in F1.
    subst b. apply N.leb_le. lia.
Qed.
(** They are 2, 4, 6, ... in call order; exactly the first 2^30 calls are
    flagged as first loop, and their ids are pairwise distinct, ... *)
Theorem C24_server_ids_sequence : forall sched l i t x b,
  len sched <= 2 ^ 62 -> run_ids (server_next 2) sched 0 = Some l ->
  nth_error l i = Some (t, (x, b)) ->
  (N.of_nat i < 2 ^ 30 - 1 -> x = 2 * (N.of_nat i + 1)) /\ (b = true <-> N.of_nat i < 2 ^ 30)
  /\ (forall j t' b', nth_error l j = Some (t', (x, b')) -> N.of_nat i < 2 ^ 30 -> N.of_nat j < 2 ^ 30 -> i = j).
Proof.
  intros sched l i t x b Hs E G. change (2 ^ 62) with 4611686018427387904 in Hs.
  change (2 ^ 30 - 1) with 1073741823. change (2 ^ 30) with 1073741824.
  destruct (run_ids_nth (server_next 2) _ sched 0 9223372036854775807 server_step ltac:(lia))
    as (l' & E' & Hlen & Hi).
  assert (l' = l) by congruence. subst l'. destruct (Hi _ _ _ G) as [F _].
  pose proof (f_equal fst F) as F1. pose proof (f_equal snd F) as F2. cbn [fst snd] in F1, F2.
  split; [lia|]. split; [rewrite F2, N.leb_le; lia|].
  intros j t' b' G' Hii Hj. destruct (Hi _ _ _ G') as [F' _]. apply (f_equal fst) in F'. cbn [fst] in F'. lia.
Qed.
(** ... and call number 2^30 yields id 0, the id of the connection itself, still
    flagged as a first-loop (unused) id. *)
Theorem C24_server_id_zero_refuted : forall sched l t r,
  len sched <= 2 ^ 62 -> run_ids (server_next 2) sched 0 = Some l ->
  nth_error l (N.to_nat (2 ^ 30 - 1)) = Some (t, r) -> r = (0, true).
Proof.
  intros sched l t r Hs E G. change (2 ^ 62) with 4611686018427387904 in Hs.
  destruct (run_ids_nth (server_next 2) _ sched 0 9223372036854775807 server_step ltac:(lia))
    as (l' & E' & Hlen & Hi).
  assert (l' = l) by congruence. subst l'. destruct (Hi _ _ _ G) as [-> _].
  rewrite N2Nat.id. vm_compute. reflexivity.
Qed.
(** Client and server ids never meet. *)
Theorem C24_client_server_disjoint : forall s1 s2 l1 l2,
  len s1 <= 2 ^ 62 -> len s2 <= 2 ^ 62 ->
  run_ids (client_next 2) s1 0 = Some l1 -> run_ids (server_next 2) s2 0 = Some l2 ->
  forall x, In x (ids l1) -> ~ In x (ids l2).
Proof.
  intros s1 s2 l1 l2 Hs1 Hs2 E1 E2 x H1 H2. change (2 ^ 62) with 4611686018427387904 in *.
  destruct (run_ids_nth (client_next 2) _ s1 0 18446744073709551615 client_step ltac:(lia))
    as (l' & E' & _ & Hi).
  assert (l' = l1) by congruence. subst l'.
  destruct (run_ids_nth (server_next 2) _ s2 0 9223372036854775807 server_step ltac:(lia))
    as (l' & E'' & _ & Hj).
  assert (l' = l2) by congruence. subst l'.
  apply In_nth_error in H1. destruct H1 as [i H1]. destruct (nth_ids _ _ _ H1) as (t1 & b1 & G1).
  apply In_nth_error in H2. destruct H2 as [j H2]. destruct (nth_ids _ _ _ H2) as (t2 & b2 & G2).
  destruct (Hi _ _ _ G1) as [F1 _]. destruct (Hj _ _ _ G2) as [F2 _].
  apply (f_equal fst) in F1. apply (f_equal fst) in F2. cbn [fst] in F1, F2. lia.
Qed.
Example C24_example :
  run_ids (server_next 2) [0; 1; 0]%nat 0
  = Some [(0%nat, (2, true)); (1%nat, (4, true)); (0%nat, (6, true))]
  /\ run_ids (server_next 2) [0; 1; 1]%nat 1073741822
     = Some [(0%nat, (2147483646, true)); (1%nat, (0, true)); (1%nat, (2, false))].
Proof. vm_compute. auto. Qed.
Print Assumptions C24_server_ids_distinct_even.
Print Assumptions C24_server_ids_sequence.
Print Assumptions C24_server_id_zero_refuted.
Print Assumptions C24_client_server_disjoint.
