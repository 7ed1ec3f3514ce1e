(** Proofs about the TCP frame reader and writer. *)
From Verif Require Import Base BaseFacts FramesModel FramesProofs BufferModel BufferProofs TcpModel.
Local Ltac Zify.zify_post_hook ::= Z.div_mod_to_equations.

(** Specification: a length prefixed body, a stream of them, an incomplete one. *)
Definition framed (b : bytes) : bytes := be 3 (len b) ++ b.
Definition stream_of (bs : list bytes) : bytes := concat (map framed bs).
Definition body_ok (b : bytes) : Prop := 6 <= len b < 2 ^ 24.
Definition incomplete (t : bytes) : Prop :=
  exists b rest, 1 <= len b < 2 ^ 24 /\ rest <> [] /\ framed b = t ++ rest.

Lemma len_framed : forall b, len (framed b) = 3 + len b.
Proof. intros. unfold framed. now rewrite len_app, len_be. Qed.
Lemma stream_cons : forall b bs, stream_of (b :: bs) = framed b ++ stream_of bs.
Proof. reflexivity. Qed.

Lemma do_split_framed : forall b rest, 1 <= len b < 16777216 ->
  do_split (framed b ++ rest) false = SplitToken (len b + 3) (framed b).
Proof.
  intros b rest Hb. unfold do_split, framed. rewrite <- app_assoc, read_u24_be by lia.
  rewrite !len_app, len_be.
  destruct (N.ltb_spec (N.of_nat 3 + (len b + len rest)) 3); [lia|].
  destruct (N.ltb_spec (len b) 1); [lia|].
  destruct (N.leb_spec (len b + 3) (N.of_nat 3 + (len b + len rest))); [|lia].
  f_equal. rewrite app_assoc. apply takeN_app_exact. rewrite len_app, len_be. lia.
Qed.
Lemma prefix_cases : forall (p q a b : bytes), p ++ q = a ++ b ->
  (exists x, p = a ++ x /\ b = x ++ q) \/ (exists y, y <> [] /\ a = p ++ y /\ q = y ++ b).
Proof.
  induction p as [|x p IH]; intros q a b H.
  - destruct a as [|y a].
    + left. exists []. cbn in *. now subst.
    + right. exists (y :: a). cbn in *. repeat split; auto. discriminate.
  - destruct a as [|y a].
    + left. exists (x :: p). cbn in *. auto.
    + cbn in H. injection H as -> H. destruct (IH _ _ _ H) as [(z & -> & ->)|(z & Hz & -> & ->)].
      * left. exists z. auto.
      * right. exists z. auto.
Qed.
Lemma do_split_incomplete : forall t, incomplete t -> do_split t false = SplitMore.
Proof.
  intros t (b & rest & Hb & Hr & H). change (2 ^ 24) with 16777216 in Hb. unfold do_split.
  assert (Hl : len t + len rest = 3 + len b) by (rewrite <- len_app, <- H; apply len_framed).
  assert (0 < len rest).
  { destruct rest; [congruence|]. rewrite len_cons. lia. }
  destruct (N.ltb_spec (len t) 3); [reflexivity|].
  assert (Hu : exists y, t = be 3 (len b) ++ y).
  { unfold framed in H. symmetry in H.
    destruct (prefix_cases _ _ _ _ H) as [(y & -> & _)|(y & Hy & E & _)]; [eauto|].
    exfalso. apply (f_equal len) in E. rewrite len_app, len_be in E.
    destruct y; [congruence|]. rewrite len_cons in E. lia. }
  destruct Hu as (y & ->). rewrite read_u24_be by lia.
  destruct (N.ltb_spec (len b) 1); [lia|].
  destruct (N.leb_spec (len b + 3) (len (be 3 (len b) ++ y))); [lia|reflexivity].
Qed.

(** Ways a connection can end after the chunks: plain end, or an end reported
    together with more bytes. *)
Definition ending (e : list net_read) : Prop := e = [] \/ exists c, e = [ChunkEof c].

Lemma scan_frame : forall chunks pending b s e, 1 <= len b < 16777216 ->
  pending ++ concat chunks = framed b ++ s ->
  exists pending' chunks', scan pending (map Chunk chunks ++ e)
    = (ScanToken (framed b), (pending', map Chunk chunks' ++ e))
    /\ pending' ++ concat chunks' = s.
Proof.
  induction chunks as [|c chunks IH]; intros pending b s e Hb H.
  - cbn [concat] in H. rewrite app_nil_r in H. subst pending.
    exists s, []. split; [|cbn; now rewrite app_nil_r].
    cbn [map app]. destruct e as [|? ?]; cbn [scan];
      rewrite do_split_framed by assumption;
      now rewrite dropN_app_exact by (rewrite len_framed; lia).
  - destruct (prefix_cases _ _ _ _ H) as [(x & -> & ->)|(y & Hy & E & E2)].
    + exists x, (c :: chunks). split; [|reflexivity].
      cbn [map app scan]. rewrite do_split_framed by assumption.
      now rewrite dropN_app_exact by (rewrite len_framed; lia).
    + assert (Hi : incomplete pending).
      { exists b, y. change (2 ^ 24) with 16777216. auto. }
      cbn [map app scan]. rewrite do_split_incomplete by assumption.
      apply IH; [assumption|]. rewrite <- app_assoc. exact H.
Qed.
Lemma incomplete_prefix : forall p q, incomplete (p ++ q) -> incomplete p.
Proof.
  intros p q (b & rest & Hb & Hr & H). exists b, (q ++ rest).
  repeat split; try tauto.
  - destruct q; [assumption|discriminate].
  - now rewrite app_assoc.
Qed.
Lemma scan_end : forall chunks pending e, ending e ->
  incomplete (pending ++ concat chunks) ->
  exists st, scan pending (map Chunk chunks ++ e) = (ScanEof, st).
Proof.
  induction chunks as [|c chunks IH]; intros pending e He Hi.
  - cbn [concat] in Hi. rewrite app_nil_r in Hi. cbn [map app].
    destruct He as [->|[c ->]]; cbn [scan]; rewrite do_split_incomplete by assumption;
      cbn [do_split]; eauto.
  - cbn [map app scan]. rewrite do_split_incomplete by (eapply incomplete_prefix; eauto).
    apply IH; [assumption|]. rewrite <- app_assoc. exact Hi.
Qed.

Lemma raw_of_framed : forall b, dropN 3 (framed b) = b.
Proof. intros. unfold framed. apply dropN_app_exact. now rewrite len_be. Qed.

Lemma read_raw_all_ok : forall bs fuel chunks pending tail e, ending e ->
  Forall body_ok bs -> incomplete tail ->
  (List.length bs < fuel)%nat ->
  pending ++ concat chunks = stream_of bs ++ tail ->
  read_raw_all fuel pending (map Chunk chunks ++ e) = Some (bs, RawEof).
Proof.
  induction bs as [|b bs IH]; intros fuel chunks pending tail e He Hbs Ht Hf H;
    (destruct fuel as [|fuel]; [cbn in Hf; lia|]); cbn [read_raw_all]; unfold decoder_read.
  - cbn in H. rewrite <- H in Ht. destruct (scan_end chunks pending e He Ht) as ((p & r) & ->).
    reflexivity.
  - inversion Hbs as [|? ? Hb Hbs']; subst.
    unfold body_ok in Hb. change (2 ^ 24) with 16777216 in Hb.
    rewrite stream_cons, <- app_assoc in H.
    destruct (scan_frame chunks pending b _ e ltac:(lia) H) as (p' & c' & -> & H').
    rewrite raw_of_framed. unfold FrameHeaderLen. destruct (N.ltb_spec (len b) 6); [lia|].
    rewrite (IH fuel c' p' tail e); auto. cbn in Hf. lia.
Qed.

Lemma read_frames_all_ok : forall bs fs fuel chunks pending tail e, ending e ->
  Forall body_ok bs -> incomplete tail ->
  Forall2 (fun b f => frame_of_bytes b = Ok f) bs fs ->
  (List.length bs < fuel)%nat ->
  pending ++ concat chunks = stream_of bs ++ tail ->
  read_frames_all fuel pending (map Chunk chunks ++ e) = Some (fs, ConnEof).
Proof.
  induction bs as [|b bs IH]; intros fs fuel chunks pending tail e He Hbs Ht Hd Hf H;
    (destruct fuel as [|fuel]; [cbn in Hf; lia|]); cbn [read_frames_all]; unfold decoder_read.
  - cbn in H. rewrite <- H in Ht. destruct (scan_end chunks pending e He Ht) as ((p & r) & ->).
    inversion Hd. reflexivity.
  - inversion Hbs as [|? ? Hb Hbs']; subst. inversion Hd as [|? f ? fs' Hf1 Hfs]; subst.
    unfold body_ok in Hb. change (2 ^ 24) with 16777216 in Hb.
    rewrite stream_cons, <- app_assoc in H.
    destruct (scan_frame chunks pending b _ e ltac:(lia) H) as (p' & c' & -> & H').
    rewrite raw_of_framed. unfold FrameHeaderLen. destruct (N.ltb_spec (len b) 6); [lia|].
    unfold decode_raw. rewrite Hf1.
    rewrite (IH fs' fuel c' p' tail e); auto. cbn in Hf. lia.
Qed.

Lemma incomplete_nil : incomplete [].
Proof. exists [0], (framed [0]). cbn. repeat split; try lia. discriminate. Qed.

(** *** writing *)
Lemma must_u24 : forall v, v < 16777216 -> must_new_uint24 v = Ok (be 3 v).
Proof.
  intros v Hv. unfold must_new_uint24, new_uint24, MaxUint24.
  destruct (N.ltb_spec 16777215 v); [lia|]. now rewrite u24_bytes by lia.
Qed.
Lemma conn_write_ok : forall f body, frame_to_bytes f = Ok body -> len body = size_frame f ->
  size_frame f < 16777216 ->
  conn_write f = Ok [be 3 (len body); body].
Proof.
  intros f body H Hl Hs. unfold conn_write. rewrite must_u24 by assumption. cbn [bind].
  rewrite H. cbn [bind]. now rewrite Hl.
Qed.

(** *** the buffer as memory *)
Lemma sub_mem_app : forall a b c n, len b = n -> sub_mem (len a) n (a ++ b ++ c) = b.
Proof. intros. unfold sub_mem. rewrite dropN_app_len. now apply takeN_app_exact. Qed.
Lemma len_write_at : forall off bs m, off + len bs <= len m -> len (write_at off bs m) = len m.
Proof.
  intros. unfold write_at. rewrite !len_app, len_takeN, len_dropN. lia.
Qed.
Lemma sub_write_same : forall off bs m, off + len bs <= len m ->
  sub_mem off (len bs) (write_at off bs m) = bs.
Proof.
  intros. unfold write_at.
  assert (E : off = len (takeN off m)) by (rewrite len_takeN; lia).
  rewrite E at 1. now apply sub_mem_app.
Qed.
Lemma sub_write_inside : forall off bs m o n, off + len bs <= len m ->
  off <= o -> o + n <= off + len bs ->
  sub_mem o n (write_at off bs m) = takeN n (dropN (o - off) bs).
Proof.
  intros. unfold sub_mem, write_at.
  rewrite dropN_app_ge by (rewrite len_takeN; lia). rewrite len_takeN, N.min_l by lia.
  rewrite dropN_app_le by lia. apply takeN_app_le. rewrite len_dropN. lia.
Qed.
(** A write beyond a view leaves it unchanged. *)
Lemma sub_write_before : forall off bs m o n, off + len bs <= len m -> o + n <= off ->
  sub_mem o n (write_at off bs m) = sub_mem o n m.
Proof.
  intros. unfold sub_mem, write_at.
  rewrite dropN_app_le by (rewrite len_takeN; lia).
  rewrite takeN_app_le by (rewrite len_dropN, len_takeN; lia).
  rewrite <- (take_drop _ off m) at 2.
  rewrite dropN_app_le by (rewrite len_takeN; lia).
  rewrite takeN_app_le by (rewrite len_dropN, len_takeN; lia). reflexivity.
Qed.

(** *** concurrent writers *)
(** Frames picked by a list of sender numbers, each sender in its own order. *)
Fixpoint pick {A} (i : nat) (ts : list (list A)) : option A * list (list A) :=
  match ts, i with
  | [], _ => (None, [])
  | (w :: ws) :: ts', O => (Some w, ws :: ts')
  | [] :: ts', O => (None, [] :: ts')
  | t :: ts', S i' => let (w, r) := pick i' ts' in (w, t :: r)
  end.
Fixpoint picks {A} (order : list nat) (ts : list (list A)) : list A :=
  match order with
  | [] => []
  | i :: order' => match pick i ts with
                   | (Some w, ts') => w :: picks order' ts'
                   | (None, ts') => picks order' ts'
                   end
  end.
Definition two_writes (b : bytes) : list bytes := [be 3 (len b); b].
Lemma pop_pick : forall i bss,
  let ws := map (flat_map two_writes) bss in
  exists w1 w2 ts1, pop_thread i ws = (w1, ts1)
   /\ pop_thread i ts1 = (w2, map (flat_map two_writes) (snd (pick i bss)))
   /\ w1 ++ w2 = match fst (pick i bss) with Some b => framed b | None => [] end.
Proof.
  intros i bss. revert i. induction bss as [|bs bss IH]; intros i; cbn [map].
  - exists [], [], []. destruct i; cbn; auto.
  - destruct i as [|i].
    + destruct bs as [|b bs]; cbn.
      * exists [], [], ([] :: map (flat_map two_writes) bss). auto.
      * eexists _, _, _. split; [reflexivity|]. cbn. split; reflexivity.
    + destruct (IH i) as (w1 & w2 & ts1 & E1 & E2 & E3).
      assert (Hp : forall t ts, pop_thread (S i) (t :: ts)
                   = let (w, r) := pop_thread i ts in (w, t :: r)).
      { intros [|? ?] ts; reflexivity. }
      assert (Hk : forall (t : list bytes) ts, pick (S i) (t :: ts)
                   = let (w, r) := pick i ts in (w, t :: r)).
      { intros [|? ?] ts; reflexivity. }
      exists w1, w2, (flat_map two_writes bs :: ts1).
      rewrite Hk, Hp, E1. split; [reflexivity|]. rewrite Hp, E2.
      destruct (pick i bss) as [o r]. cbn in *. auto.
Qed.
Lemma run_serial : forall order bss,
  run_writers (flat_map (fun i => [i; i]) order) (map (flat_map two_writes) bss)
  = stream_of (picks order bss).
Proof.
  induction order as [|i order IH]; intros bss; [reflexivity|].
  cbn [flat_map app run_writers picks].
  destruct (pop_pick i bss) as (w1 & w2 & ts1 & E1 & E2 & E3). cbv zeta in E1.
  rewrite E1, E2, IH, app_assoc, E3.
  destruct (pick i bss) as [[b|] r]; cbn; reflexivity.
Qed.
