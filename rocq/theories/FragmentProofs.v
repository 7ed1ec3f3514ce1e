(** Proofs about fragmentation (FramesModel.v, last section). *)
From Verif Require Import Base BaseFacts FramesModel FramesProofs.
Local Ltac Zify.zify_post_hook ::= Z.div_mod_to_equations.

Definition mk_frag (sid : N) (md d : bytes) (follows complete next : bool) : payload :=
  {| pl_stream := sid; pl_metadata := md; pl_data := d;
     pl_follows := follows; pl_complete := complete; pl_next := next |}.

(** One iteration in plain arithmetic. *)
Lemma split_iter_md : forall sid next complete max data md,
  9 + len md + len data < 4294967296 -> max < 4294967296 ->
  0 < len md -> 9 <= max -> max - 9 < len md ->
  split_iter sid next complete max data md
  = Some (mk_frag sid (takeN (max - 9) md) [] true false false, (data, dropN (max - 9) md)).
Proof.
  intros sid next complete max data md Ht Hm Hmd H9 Hs. unfold split_iter, FrameHeaderLen.
  rewrite (u32_small (len md)), (u32_small (len data)) by lia.
  destruct (N.ltb_spec 0 (len md)); [|lia]. change (6 + 3) with 9.
  rewrite !u32_small by lia. rewrite sub32_small by lia.
  destruct (N.eqb_spec (len md + len data) 0); [lia|].
  destruct (N.ltb_spec (max - 9) (len md)); [|lia].
  destruct (N.ltb_spec max (9 + len md + len data)); [reflexivity|lia].
Qed.
Lemma split_iter_mixed : forall sid next complete max data md hd,
  9 + len md + len data < 4294967296 -> max < 4294967296 ->
  hd = (if 0 <? len md then 9 else 6) -> hd <= max -> len md <= max - hd ->
  max - hd - len md < len data ->
  split_iter sid next complete max data md
  = Some (mk_frag sid md (takeN (max - hd - len md) data) true false false,
          (dropN (max - hd - len md) data, [])).
Proof.
  intros sid next complete max data md hd Ht Hm -> H9 Hs Hd. unfold split_iter, FrameHeaderLen.
  rewrite (u32_small (len md)), (u32_small (len data)) by lia.
  change (6 + 3) with 9. set (hd := if 0 <? len md then 9 else 6) in *.
  assert (hd <= 9) by (unfold hd; destruct (0 <? len md); lia).
  rewrite !u32_small by lia. rewrite (sub32_small max hd) by lia. rewrite sub32_small by lia.
  destruct (N.eqb_spec (len md + len data) 0); [lia|].
  destruct (N.ltb_spec (max - hd) (len md)); [lia|].
  destruct (N.ltb_spec (max - hd - len md) (len data)); [|lia].
  rewrite N.min_l by lia.
  destruct (N.ltb_spec max (hd + len md + len data)); [reflexivity|lia].
Qed.
Lemma split_iter_last : forall sid next complete max data md hd,
  9 + len md + len data < 4294967296 -> max < 4294967296 ->
  hd = (if 0 <? len md then 9 else 6) ->
  0 < len md + len data -> hd + len md + len data <= max ->
  split_iter sid next complete max data md
  = Some (mk_frag sid md data false complete next, ([], [])).
Proof.
  intros sid next complete max data md hd Ht Hm -> H0 Hs. unfold split_iter, FrameHeaderLen.
  rewrite (u32_small (len md)), (u32_small (len data)) by lia.
  change (6 + 3) with 9. set (hd := if 0 <? len md then 9 else 6) in *.
  assert (hd <= 9) by (unfold hd; destruct (0 <? len md); lia).
  rewrite !u32_small by lia. rewrite (sub32_small max hd) by lia. rewrite sub32_small by lia.
  destruct (N.eqb_spec (len md + len data) 0); [lia|].
  destruct (N.ltb_spec (max - hd) (len md)); [lia|].
  destruct (N.ltb_spec (max - hd - len md) (len data)); [lia|].
  destruct (N.ltb_spec max (hd + len md + len data)); [lia|].
  cbn [negb andb]. unfold mk_frag. reflexivity.
Qed.
Lemma split_iter_done : forall sid next complete max,
  split_iter sid next complete max [] [] = None.
Proof. reflexivity. Qed.

(** ** What a fragment sequence must satisfy (specification) *)
Definition frag_size (p : payload) : N :=
  6 + (if 0 <? len (pl_metadata p) then 3 + len (pl_metadata p) else 0) + len (pl_data p).
Definition all_metadata (ps : list payload) : bytes := concat (map pl_metadata ps).
Definition all_data (ps : list payload) : bytes := concat (map pl_data ps).
Record good_fragments (sid : N) (next complete : bool) (max : N) (md data : bytes)
    (ps : list payload) : Prop := {
  gf_md : all_metadata ps = md;
  gf_data : all_data ps = data;
  gf_stream : Forall (fun p => pl_stream p = sid) ps;
  gf_size : Forall (fun p => frag_size p <= max) ps;
  gf_nonempty : Forall (fun p => pl_metadata p <> [] \/ pl_data p <> []) ps;
  gf_flags : exists ini lst, ps = ini ++ [lst]
     /\ Forall (fun p => pl_follows p = true /\ pl_complete p = false /\ pl_next p = false) ini
     /\ pl_follows lst = false /\ pl_complete lst = complete /\ pl_next lst = next;
  gf_order : forall pre p post, ps = pre ++ p :: post -> pl_data p <> [] ->
     all_metadata post = []
}.

Lemma good_cons : forall sid next complete max md data p ps,
  pl_stream p = sid -> frag_size p <= max ->
  (pl_metadata p <> [] \/ pl_data p <> []) ->
  pl_follows p = true -> pl_complete p = false -> pl_next p = false ->
  (pl_data p <> [] -> md = []) ->
  good_fragments sid next complete max md data ps ->
  good_fragments sid next complete max (pl_metadata p ++ md) (pl_data p ++ data) (p :: ps).
Proof.
  intros sid next complete max md data p ps H1 H2 H3 H4 H5 H6 H7 [G1 G2 G3 G4 G5 G6 G7].
  constructor.
  - unfold all_metadata in *. cbn [map concat]. now rewrite G1.
  - unfold all_data in *. cbn [map concat]. now rewrite G2.
  - now constructor.
  - now constructor.
  - now constructor.
  - destruct G6 as (ini & lst & -> & Hi & Hr). exists (p :: ini), lst.
    split; [reflexivity|]. split; [constructor; auto|exact Hr].
  - intros [|q pre] x post E Hx; cbn [app] in E; injection E as -> E.
    + subst post. rewrite G1. auto.
    + eapply G7; eauto.
Qed.
Lemma good_single : forall sid next complete max md data,
  (md <> [] \/ data <> []) ->
  frag_size (mk_frag sid md data false complete next) <= max ->
  good_fragments sid next complete max md data [mk_frag sid md data false complete next].
Proof.
  intros. constructor; cbn; auto.
  - apply app_nil_r.
  - apply app_nil_r.
  - exists [], (mk_frag sid md data false complete next). cbn. auto.
  - intros [|q [|q' pre]] x post E Hx; cbn [app] in E; injection E as E1 E2; subst; try discriminate.
    reflexivity.
Qed.

Lemma len_pos_ne : forall A (l : list A), 0 < len l -> l <> [].
Proof. intros A l H ->. cbn in H. lia. Qed.
Lemma ne_len_pos : forall A (l : list A), l <> [] -> 0 < len l.
Proof. intros A [|x l] H; [congruence|]. rewrite len_cons. lia. Qed.

(** ** The loop *)
Lemma split_loop_good : forall n fuel sid next complete max data md,
  (List.length md + List.length data <= n)%nat -> (n < fuel)%nat ->
  9 + len md + len data < 4294967296 -> max < 4294967296 ->
  (if 0 <? len md then 10 else 7) <= max -> 0 < len md + len data ->
  exists ps, split_loop fuel sid next complete max data md = Some ps
    /\ good_fragments sid next complete max md data ps.
Proof.
  induction n as [|n IH]; intros fuel sid next complete max data md Hn Hf Ht Hm Hmin H0.
  - unfold len in H0. lia.
  - destruct fuel as [|fuel]; [lia|]. cbn [split_loop].
    set (hd := if 0 <? len md then 9 else 6).
    assert (Hhd : hd + 1 <= max) by (unfold hd; destruct (0 <? len md); lia).
    assert (Hcase : (0 <? len md) = true /\ hd = 9 /\ 0 < len md
                 \/ (0 <? len md) = false /\ hd = 6 /\ len md = 0)
      by (unfold hd; destruct (N.ltb_spec 0 (len md)); [left|right]; repeat split; lia).
    assert (Ehd : hd = if 0 <? len md then 9 else 6) by reflexivity.
    clearbody hd.
    destruct (N.le_gt_cases (hd + len md + len data) max) as [Hfit|Hbig].
    { (* last *)
      rewrite (split_iter_last _ _ _ _ _ _ hd) by (auto; lia).
      destruct fuel as [|fuel]; [unfold len in H0; lia|].
      cbn [split_loop]. rewrite split_iter_done. eexists; split; [reflexivity|].
      apply good_single.
      - destruct (N.eq_dec (len md) 0); [right|left]; apply len_pos_ne; lia.
      - unfold frag_size; cbn [mk_frag pl_metadata pl_data].
        destruct Hcase as [(-> & ? & ?)|(-> & ? & ?)]; lia. }
    destruct (N.le_gt_cases (len md) (max - hd)) as [Hmd|Hmd].
    + (* all metadata, some data *)
      rewrite (split_iter_mixed _ _ _ _ _ _ hd) by (auto; lia).
      set (ds := max - hd - len md).
      assert (Hdrop : len (dropN ds data) = len data - ds) by apply len_dropN.
      assert (Hlt : ds < len data) by (unfold ds; lia).
      destruct (IH fuel sid next complete max (dropN ds data) []) as (ps & -> & G).
      * cbn [List.length]. unfold len in *.
        assert (0 < ds \/ 0 < len md) by (unfold ds, len in *; lia). unfold len in *. lia.
      * lia.
      * rewrite len_nil, Hdrop. lia.
      * assumption.
      * cbn. destruct (0 <? len md); lia.
      * rewrite Hdrop, len_nil. lia.
      * eexists; split; [reflexivity|].
        pose proof (good_cons sid next complete max [] (dropN ds data)
           (mk_frag sid md (takeN ds data) true false false) ps) as C.
        cbn [mk_frag pl_metadata pl_data pl_stream pl_follows pl_complete pl_next app] in C. rewrite app_nil_r, take_drop in C. apply C; auto.
        -- unfold frag_size; cbn [mk_frag pl_metadata pl_data]. rewrite len_takeN. unfold ds in *.
           destruct Hcase as [(-> & ? & ?)|(-> & ? & ?)]; lia.
        -- destruct (N.eq_dec (len md) 0) as [E|E].
           ++ right. apply len_pos_ne. rewrite len_takeN. unfold ds. lia.
           ++ left. apply len_pos_ne. lia.
    + (* metadata only *)
      assert (Hp : 0 < len md) by lia.
      assert (hd = 9) as E9 by lia.
      rewrite E9 in *. rewrite split_iter_md by lia.
      set (s := max - 9).
      assert (Hdrop : len (dropN s md) = len md - s) by apply len_dropN.
      assert (Hmin' : 10 <= max) by lia.
      destruct (IH fuel sid next complete max data (dropN s md)) as (ps & -> & G).
      * unfold len in *. lia.
      * lia.
      * rewrite Hdrop. lia.
      * assumption.
      * destruct (0 <? len (dropN s md)); lia.
      * rewrite Hdrop. unfold s. lia.
      * eexists; split; [reflexivity|].
        pose proof (good_cons sid next complete max (dropN s md) data
           (mk_frag sid (takeN s md) [] true false false) ps) as C.
        cbn [mk_frag pl_metadata pl_data pl_stream pl_follows pl_complete pl_next app] in C. rewrite take_drop in C. apply C; auto.
        -- unfold frag_size; cbn [mk_frag pl_metadata pl_data]. rewrite len_takeN, len_nil. unfold s.
           destruct (0 <? N.min (max - 9) (len md)); lia.
        -- left. apply len_pos_ne. rewrite len_takeN. unfold s. lia.
        -- congruence.
Qed.

(** ** Limits below the minimum *)
Lemma split_loop_stuck_data : forall fuel sid next complete data,
  0 < len data -> 9 + len data < 4294967296 ->
  split_loop fuel sid next complete 6 data [] = None.
Proof.
  induction fuel as [|fuel IH]; intros sid next complete data H0 Ht; [reflexivity|].
  cbn [split_loop]. rewrite (split_iter_mixed _ _ _ _ _ _ 6) by (cbn; auto; lia).
  change (6 - 6 - len []) with 0. rewrite takeN_0, dropN_0, IH by assumption. reflexivity.
Qed.
Lemma split_loop_stuck_md : forall fuel sid next complete data md,
  0 < len md -> 9 + len md + len data < 4294967296 ->
  split_loop fuel sid next complete 9 data md = None.
Proof.
  induction fuel as [|fuel IH]; intros sid next complete data md H0 Ht; [reflexivity|].
  cbn [split_loop]. rewrite split_iter_md by lia.
  change (9 - 9) with 0. rewrite takeN_0, dropN_0, IH by assumption. reflexivity.
Qed.
Lemma split_loop_tiny : forall fuel sid next complete max data md,
  (1 < fuel)%nat -> 9 + len md + len data < 4294967296 -> 0 < len md + len data ->
  max < (if 0 <? len md then 9 else 6) -> 16 + len md + len data < 4294967296 ->
  split_loop fuel sid next complete max data md
  = Some [mk_frag sid md data true false false].
Proof.
  intros fuel sid next complete max data md Hf Ht H0 Hm Ht2.
  destruct fuel as [|[|fuel]]; try lia. cbn [split_loop].
  assert (E : split_iter sid next complete max data md
    = Some (mk_frag sid md data true false false, ([], []))).
  { unfold split_iter, FrameHeaderLen.
    rewrite (u32_small (len md)), (u32_small (len data)) by lia.
    change (6 + 3) with 9. set (hd := if 0 <? len md then 9 else 6) in *.
    assert (6 <= hd <= 9) by (unfold hd; destruct (0 <? len md); lia).
    rewrite !u32_small by lia.
    assert (Es : sub32 max hd = max + 4294967296 - hd) by (unfold sub32, u32; lia).
    rewrite Es. rewrite sub32_small by lia.
    destruct (N.eqb_spec (len md + len data) 0); [lia|].
    destruct (N.ltb_spec (max + 4294967296 - hd) (len md)); [lia|].
    destruct (N.ltb_spec (max + 4294967296 - hd - len md) (len data)); [lia|].
    destruct (N.ltb_spec max (hd + len md + len data)); [reflexivity|lia]. }
  rewrite E, split_iter_done. reflexivity.
Qed.

(** ** Requests *)
Definition req_head_size (ty : N) : N := if (ty =? 6) || (ty =? 7) then 10 else 6.
Definition req_frag_size (r : request) : N :=
  req_head_size (rq_type r)
  + (if 0 <? len (rq_metadata r) then 3 + len (rq_metadata r) else 0) + len (rq_data r).
Lemma size_request_plain : forall f, 13 + len (rq_metadata f) + len (rq_data f) < 4294967296 ->
  size_request f = req_frag_size f.
Proof.
  intros f H. rewrite size_request_wire by assumption.
  unfold wire_request, req_frag_size, req_head_size, has_initial,
    FrameTypeRequestStream, FrameTypeRequestChannel.
  rewrite !len_app, header_len, len_md_block.
  destruct (_ || _); rewrite ?len_be, ?len_nil; lia.
Qed.
Lemma size_payload_plain : forall f, 9 + len (pl_metadata f) + len (pl_data f) < 4294967296 ->
  size_payload f = frag_size f.
Proof.
  intros f H. rewrite size_payload_wire by assumption.
  unfold wire_payload, frag_size. rewrite !len_app, header_len, len_md_block. lia.
Qed.

Lemma fragment_head_spec : forall f max,
  13 + len (rq_metadata f) + len (rq_data f) < 4294967296 -> max < 4294967296 ->
  req_head_size (rq_type f) + 4 <= max -> max < req_frag_size f ->
  exists r data md,
    fragment_request_head f max = Ok (Some (r, (data, md)))
    /\ rq_type r = rq_type f /\ rq_stream r = rq_stream f /\ rq_initial r = rq_initial f
    /\ rq_follows r = true /\ rq_complete r = false
    /\ req_frag_size r <= max
    /\ rq_data r ++ data = rq_data f
    /\ 0 < len md + len data
    /\ len md + len data <= len (rq_metadata f) + len (rq_data f)
    /\ (if len (rq_metadata f) <? max - req_head_size (rq_type f) - 3
        then rq_metadata r = rq_metadata f /\ md = rq_metadata f
        else rq_metadata r ++ md = rq_metadata f /\ rq_data r = []).
Proof.
  intros f max Ht Hm Hmin Hbig. unfold fragment_request_head.
  rewrite size_request_plain by assumption.
  destruct (N.leb_spec (req_frag_size f) max) as [H|_]; [lia|].
  change (if has_initial (rq_type f) then FrameHeaderLen + 4 else FrameHeaderLen)
    with (req_head_size (rq_type f)).
  unfold req_frag_size in *. remember (req_head_size (rq_type f)) as hd eqn:Ehd.
  assert (Hhd : 6 <= hd <= 10) by (rewrite Ehd; unfold req_head_size; destruct (_ || _); lia).
  rewrite (u32_small (len (rq_metadata f))), (u32_small (len (rq_data f))) by lia.
  rewrite (sub32_small max hd) by lia. rewrite sub32_small by lia.
  destruct (N.leb_spec (max - hd - 3) (len (rq_metadata f))) as [Hmd|Hmd].
  - assert (Es : split_at (max - hd - 3) (rq_metadata f)
       = Ok (takeN (max - hd - 3) (rq_metadata f), dropN (max - hd - 3) (rq_metadata f))).
    { unfold split_at. destruct (N.leb_spec (max - hd - 3) (len (rq_metadata f))); [auto|lia]. }
    rewrite Es. cbn [bind fst snd]. eexists _, _, _. split; [reflexivity|].
    cbn [rq_type rq_stream rq_metadata rq_data rq_follows rq_complete rq_initial app].
    repeat split; auto.
    + rewrite <- Ehd, len_takeN, len_nil. destruct (0 <? N.min _ _); lia.
    + rewrite len_dropN. revert Hbig. destruct (N.ltb_spec 0 (len (rq_metadata f))); lia.
    + rewrite len_dropN. lia.
    + destruct (N.ltb_spec (len (rq_metadata f)) (max - hd - 3)); [lia|].
      rewrite take_drop. auto.
  - set (mdb := if 0 <? len (rq_metadata f) then 3 + len (rq_metadata f) else 0) in *.
    assert (Hmdb : len (rq_metadata f) <= mdb <= len (rq_metadata f) + 3)
      by (unfold mdb; destruct (N.ltb_spec 0 (len (rq_metadata f))); lia).
    rewrite (sub32_small _ max) by lia. rewrite sub32_small by lia.
    set (off := len (rq_data f) - (hd + mdb + len (rq_data f) - max)).
    assert (Es : split_at off (rq_data f) = Ok (takeN off (rq_data f), dropN off (rq_data f))).
    { unfold split_at. destruct (N.leb_spec off (len (rq_data f))); [auto|lia]. }
    rewrite Es. cbn [bind fst snd]. eexists _, _, _. split; [reflexivity|].
    cbn [rq_type rq_stream rq_metadata rq_data rq_follows rq_complete rq_initial app].
    repeat split; auto.
    + rewrite <- Ehd. fold mdb. rewrite len_takeN. lia.
    + apply take_drop.
    + rewrite len_dropN. lia.
    + rewrite len_dropN. lia.
    + destruct (N.ltb_spec (len (rq_metadata f)) (max - hd - 3)); [auto|lia].
Qed.
