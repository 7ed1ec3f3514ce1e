(** Proofs about the shared-memory framing and stream ids. *)
From Verif Require Import Base BaseFacts FramesModel FramesProofs TcpModel TcpProofs WasmModel.
Local Ltac Zify.zify_post_hook ::= Z.div_mod_to_equations.

Lemma take3_framed : forall b rest, len b < 16777216 -> unbe (takeN 3 (framed b ++ rest)) = len b.
Proof.
  intros b rest Hb. unfold framed. rewrite <- app_assoc, takeN_app_exact by now rewrite len_be.
  apply unbe_be_small. exact Hb.
Qed.
Lemma drop3_framed : forall b rest, dropN 3 (framed b ++ rest) = b ++ rest.
Proof. intros. unfold framed. rewrite <- app_assoc. apply dropN_app_exact. now rewrite len_be. Qed.
Lemma copy_into_prefix : forall b rest, copy_into (b ++ rest) (zeros (len b)) = b.
Proof.
  intros. unfold copy_into. rewrite len_zeros, takeN_app_len, dropN_all.
  - apply app_nil_r.
  - rewrite len_zeros, len_app. lia.
Qed.
Lemma framed_not_nil : forall b, framed b <> [].
Proof. intros b H. apply (f_equal len) in H. rewrite len_framed, len_nil in H. lia. Qed.
Lemma length_framed : forall b, List.length (framed b) = (3 + List.length b)%nat.
Proof. intros. unfold framed. now rewrite app_length, be_length. Qed.

Lemma host_loop_frame : forall fuel b rest, len b < 16777216 ->
  host_loop (S fuel) (framed b ++ rest)
  = let (l, e) := host_loop fuel rest in (b :: l, e).
Proof.
  intros fuel b rest Hb. cbn [host_loop].
  destruct (framed b ++ rest) as [|x y] eqn:E.
  { apply app_eq_nil in E. destruct (framed_not_nil b). apply E. }
  rewrite <- E. clear E x y.
  rewrite take3_framed, drop3_framed, copy_into_prefix by assumption.
  rewrite !len_app, len_framed.
  destruct (N.ltb_spec (3 + len b + len rest) 3); [lia|].
  destruct (N.ltb_spec (len b + len rest) (len b)); [lia|].
  now rewrite dropN_app_len.
Qed.
Lemma host_loop_stream : forall bodies fuel rest,
  Forall (fun b => len b < 16777216) bodies ->
  host_loop (List.length bodies + fuel) (stream_of bodies ++ rest)
  = let (l, e) := host_loop fuel rest in (bodies ++ l, e).
Proof.
  induction bodies as [|b bs IH]; intros fuel rest H.
  - cbn. now destruct (host_loop fuel rest).
  - inversion H; subst. rewrite stream_cons, <- app_assoc. cbn [List.length plus].
    rewrite host_loop_frame, IH by assumption. now destruct (host_loop fuel rest).
Qed.
Lemma stream_length : forall bodies, (List.length bodies <= List.length (stream_of bodies))%nat.
Proof.
  induction bodies as [|b bs IH]; [cbn; lia|].
  rewrite stream_cons, app_length, length_framed. cbn [List.length]. lia.
Qed.
Lemma host_split_stream : forall bodies rest,
  Forall (fun b => len b < 16777216) bodies ->
  exists fuel, (List.length rest <= fuel)%nat /\
  host_split (stream_of bodies ++ rest) = let (l, e) := host_loop fuel rest in (bodies ++ l, e).
Proof.
  intros bodies rest H. unfold host_split. pose proof (stream_length bodies).
  exists (List.length (stream_of bodies) - List.length bodies + List.length rest)%nat.
  split; [lia|]. rewrite <- host_loop_stream by assumption. rewrite app_length.
  apply (f_equal (fun n => host_loop n _)). unfold bytes in *. lia.
Qed.
Lemma host_loop_nil : forall fuel, host_loop fuel [] = ([], LoopDone).
Proof. destruct fuel; reflexivity. Qed.

Lemma guest_loop_frame : forall fuel b rest cur endPos, 6 <= len b < 16777216 -> cur < endPos ->
  guest_loop (S fuel) (framed b ++ rest) cur endPos
  = let (l, e) := guest_loop fuel rest (cur + (3 + len b)) endPos in (b :: l, e).
Proof.
  intros fuel b rest cur endPos Hb Hc. cbn [guest_loop].
  destruct (N.leb_spec endPos cur); [lia|].
  rewrite take3_framed, drop3_framed by lia. rewrite !len_app, len_framed.
  destruct (N.ltb_spec (3 + len b + len rest) 3); [lia|].
  destruct (N.ltb_spec (len b + len rest) (len b)); [lia|].
  rewrite takeN_app_len. unfold FrameHeaderLen. destruct (N.ltb_spec (len b) 6); [lia|].
  now rewrite dropN_app_len.
Qed.
Lemma guest_loop_stream : forall bodies fuel rest cur endPos,
  Forall body_ok bodies -> cur + len (stream_of bodies) <= endPos ->
  guest_loop (List.length bodies + fuel) (stream_of bodies ++ rest) cur endPos
  = let (l, e) := guest_loop fuel rest (cur + len (stream_of bodies)) endPos in (bodies ++ l, e).
Proof.
  induction bodies as [|b bs IH]; intros fuel rest cur endPos H Hc.
  - cbn [stream_of map concat List.length plus app]. rewrite len_nil, N.add_0_r.
    now destruct (guest_loop fuel rest cur endPos).
  - inversion H as [|? ? Hb Hbs]; subst. unfold body_ok in Hb. change (2 ^ 24) with 16777216 in Hb.
    rewrite stream_cons, len_app, len_framed in Hc.
    rewrite stream_cons, <- app_assoc. cbn [List.length plus].
    rewrite guest_loop_frame by lia. rewrite IH by (assumption || lia).
    rewrite len_app, len_framed.
    replace (cur + (3 + len b) + len (stream_of bs)) with (cur + (3 + len b + len (stream_of bs))) by lia.
    now destruct (guest_loop fuel rest _ endPos).
Qed.

(** Writing a frame that fits. *)
Lemma write_frame_fits : forall f w buf, writes (encode_frame f) w -> size_frame f = len w ->
  len w < 16777216 -> 3 + len w <= len buf ->
  write_frame buf f = Ok (framed w ++ dropN (3 + len w) buf, 3 + len w).
Proof.
  intros f w buf Hw Hs Hl Hb. unfold write_frame. rewrite Hs.
  rewrite copy_into_fits by (rewrite len_be; lia). rewrite len_be. change (N.of_nat 3) with 3.
  rewrite slice_from_ok by now rewrite len_be. cbn [bind].
  rewrite Hw by (rewrite len_dropN; lia). cbn [bind].
  rewrite takeN_app_exact by now rewrite len_be. rewrite dropN_dropN.
  unfold framed. rewrite <- app_assoc. rewrite u32_small by lia. reflexivity.
Qed.

(** *** stream ids *)
Lemma client_step : forall p, p < 18446744073709551615 ->
  client_next 2 p = Some (p + 1, ((2 * p + 1) mod 2147483648, p + 1 <=? 1073741824)).
Proof.
  intros p Hp. cbn [client_next]. unfold u64, u32.
  rewrite (N.mod_small (p + 1)) by lia.
  replace ((p + 1 + 18446744073709551615) mod 18446744073709551616) with p by lia.
  destruct (N.eqb_spec ((2 * p + 1) mod 18446744073709551616) 0); [lia|].
  rewrite N.land_comm. change 2147483647 with (N.ones 31). rewrite N.land_ones.
  change (2 ^ 31) with 2147483648. do 3 f_equal. lia.
Qed.
Lemma server_step : forall p, p < 9223372036854775807 ->
  server_next 2 p = Some (p + 1, ((2 * (p + 1)) mod 2147483648, p + 1 <=? 1073741824)).
Proof.
  intros p Hp. cbn [server_next]. unfold u64, u32.
  rewrite (N.mod_small (p + 1)) by lia.
  destruct (N.eqb_spec ((2 * (p + 1)) mod 18446744073709551616) 0); [lia|].
  rewrite N.land_comm. change 2147483647 with (N.ones 31). rewrite N.land_ones.
  change (2 ^ 31) with 2147483648. do 3 f_equal. lia.
Qed.

(** The n-th result (from 0) after counter p. *)
Lemma run_ids_nth : forall next f sched p lim,
  (forall q, q < lim -> next q = Some (q + 1, f q)) ->
  p + len sched <= lim ->
  exists l, run_ids next sched p = Some l /\ List.length l = List.length sched
    /\ (forall i t r, nth_error l i = Some (t, r) ->
          r = f (p + N.of_nat i) /\ nth_error sched i = Some t).
Proof.
  intros next f. induction sched as [|t sched IH]; intros p lim Hn Hl.
  - exists []. repeat split; auto; destruct i; discriminate.
  - rewrite len_cons in Hl. destruct (IH (p + 1) lim Hn ltac:(lia)) as (l & E & Hlen & Hi).
    exists ((t, f p) :: l). cbn [run_ids]. rewrite Hn by lia. rewrite E.
    split; [reflexivity|]. split; [cbn; lia|].
    intros [|i] t' r H; cbn in H.
    + injection H as <- <-. rewrite N.add_0_r. auto.
    + destruct (Hi i t' r H) as [-> H2]. split; [f_equal; lia|exact H2].
Qed.
