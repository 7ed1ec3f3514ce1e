(** Property theorems C09-C11: fragmentation. *)
From Verif Require Import Base BaseFacts FramesModel FramesProofs FragmentProofs.
Local Ltac Zify.zify_post_hook ::= Z.div_mod_to_equations.

(** Minimum frame size for which a Payload can be fragmented. *)
Definition min_frame (md : bytes) : N := match md with [] => 7 | _ => 10 end.
Lemma min_frame_if : forall md, min_frame md = if 0 <? len md then 10 else 7.
Proof. intros [|x md]; [reflexivity|]. rewrite len_cons. cbn [min_frame]. destruct (N.ltb_spec 0 (1 + len md)); lia. Qed.

(** *** C09 *)
(** [good_fragments] (FragmentProofs.v) is the specification: it speaks only
    about the fields of the fragments.  The claim about [Size()] uses the
    model's [size_payload]. *)
Theorem C09_payload_fragments : forall f max fuel,
  9 + len (pl_metadata f) + len (pl_data f) < 2 ^ 32 -> max < 2 ^ 32 ->
  min_frame (pl_metadata f) <= max ->
  (List.length (pl_metadata f) + List.length (pl_data f) < fuel)%nat ->
  (size_payload f <= max -> fragment_payload fuel f max = Some [])
  /\ (max < size_payload f ->
      exists ps, fragment_payload fuel f max = Some ps
        /\ good_fragments (pl_stream f) (pl_next f) (pl_complete f) max
             (pl_metadata f) (pl_data f) ps
        /\ Forall (fun p => size_payload p <= max) ps
        /\ 2 <= len ps).
Proof.
  intros f max fuel Ht Hm Hmin Hf. change (2 ^ 32) with 4294967296 in *.
  rewrite min_frame_if in Hmin. unfold fragment_payload. split; intros Hs.
  - destruct (N.leb_spec (size_payload f) max); [reflexivity|lia].
  - destruct (N.leb_spec (size_payload f) max); [lia|].
    pose proof (size_payload_plain f Ht) as Esz.
    assert (H0 : 0 < len (pl_metadata f) + len (pl_data f)).
    { unfold frag_size in Esz. destruct (N.ltb_spec 0 (len (pl_metadata f))); lia. }
    destruct (split_loop_good _ fuel (pl_stream f) (pl_next f) (pl_complete f) max
       (pl_data f) (pl_metadata f) (le_n _) Hf Ht Hm Hmin H0) as (ps & E & G).
    exists ps. split; [exact E|]. split; [exact G|].
    assert (Hb : Forall (fun p => size_payload p <= max) ps).
    { destruct G as [G1 G2 _ G4 _ _ _].
      assert (Hpart : Forall (fun p => len (pl_metadata p) <= len (pl_metadata f)
                               /\ len (pl_data p) <= len (pl_data f)) ps).
      { rewrite <- G1, <- G2. clear. apply Forall_forall. intros p Hin.
        apply in_split in Hin as (a & b & ->). unfold all_metadata, all_data.
        rewrite !map_app, !concat_app. cbn [map concat]. rewrite !len_app. lia. }
      rewrite Forall_forall in *. intros p Hin. rewrite size_payload_plain; [auto|].
      specialize (Hpart p Hin). lia. }
    split; [exact Hb|].
    destruct ps as [|p [|q ps]].
    + destruct G as [_ _ _ _ _ (ini & lst & Eq & _) _]. destruct ini; discriminate.
    + exfalso. destruct G as [G1 G2 _ G4 _ _ _]. unfold all_metadata, all_data in *.
      cbn in G1, G2. rewrite app_nil_r in G1, G2.
      inversion G4 as [|? ? Hp _]; subst. unfold frag_size in *. rewrite G1, G2 in Hp. lia.
    + rewrite !len_cons. lia.
Qed.
Example C09_example :
  let f := {| pl_stream := 9; pl_metadata := [1; 2; 3]; pl_data := [4; 5; 6; 7; 8; 9];
              pl_follows := false; pl_complete := true; pl_next := true |} in
  min_frame (pl_metadata f) <= 11 /\ 11 < size_payload f /\
  fragment_payload 20 f 11 = Some
   [ {| pl_stream := 9; pl_metadata := [1; 2]; pl_data := [];
        pl_follows := true; pl_complete := false; pl_next := false |};
     {| pl_stream := 9; pl_metadata := [3]; pl_data := [4];
        pl_follows := true; pl_complete := false; pl_next := false |};
     {| pl_stream := 9; pl_metadata := []; pl_data := [5; 6; 7; 8; 9];
        pl_follows := false; pl_complete := true; pl_next := true |} ].
Proof. repeat split; vm_compute; congruence. Qed.
Print Assumptions C09_payload_fragments.

(** *** C10 *)
(** The metadata the receiver would reassemble: the original when it is empty
    or fills the first frame, otherwise the original twice. *)
Definition reassembled_metadata (ty max : N) (md : bytes) : bytes :=
  if len md <? max - (if (ty =? 6) || (ty =? 7) then 10 else 6) - 3 then md ++ md else md.
Theorem C10_request_fragments : forall f max fuel,
  13 + len (rq_metadata f) + len (rq_data f) < 2 ^ 32 -> max < 2 ^ 32 ->
  (if (rq_type f =? 6) || (rq_type f =? 7) then 10 else 6) + 4 <= max ->
  max < size_request f ->
  (List.length (rq_metadata f) + List.length (rq_data f) < fuel)%nat ->
  exists r ps data' md',
    fragment_request fuel f max = Some (Ok (Some (r, ps)))
    /\ rq_type r = rq_type f /\ rq_stream r = rq_stream f /\ rq_initial r = rq_initial f
    /\ rq_follows r = true /\ rq_complete r = false
    /\ size_request r <= max
    /\ good_fragments (rq_stream f) true (rq_complete f) max md' data' ps
    /\ rq_data r ++ data' = rq_data f
    /\ rq_metadata r ++ md' = reassembled_metadata (rq_type f) max (rq_metadata f).
Proof.
  intros f max fuel Ht Hm Hmin Hbig Hf. change (2 ^ 32) with 4294967296 in *.
  rewrite size_request_plain in Hbig by assumption.
  destruct (fragment_head_spec f max Ht Hm Hmin Hbig) as
    (r & data & md & E & H1 & H2 & H3 & H4 & H5 & H6 & H7 & H8 & H9 & H10).
  unfold fragment_request. rewrite E.
  assert (Hmax : (if 0 <? len md then 10 else 7) <= max)
    by (destruct (0 <? len md); destruct (_ || _); lia).
  destruct (split_loop_good _ fuel (rq_stream f) true (rq_complete f) max data md
     (le_n _)) as (ps & -> & G); try assumption; try lia.
  { unfold len in H9. lia. }
  exists r, ps, data, md. split; [reflexivity|]. repeat (split; [assumption|]).
  split; [|split; [exact G|split; [exact H7|]]].
  - assert (Hl : len (rq_data r) <= len (rq_data f)).
    { rewrite <- H7, len_app. lia. }
    rewrite size_request_plain; [exact H6|].
    assert (len (rq_metadata r) <= len (rq_metadata f)); [|lia].
    destruct (len (rq_metadata f) <? _).
    + destruct H10 as [-> _]. lia.
    + destruct H10 as [<- _]. rewrite len_app. lia.
  - unfold reassembled_metadata. unfold req_head_size in H10.
    destruct (len (rq_metadata f) <? _); destruct H10 as [Ha Hb].
    + now rewrite Ha, Hb.
    + exact Ha.
Qed.
(** Metadata that is neither empty nor as long as the first frame allows is
    not reassembled to itself. *)
Theorem C10_metadata_duplicated_refuted :
  exists f max fuel r ps,
    fragment_request fuel f max = Some (Ok (Some (r, ps)))
    /\ rq_metadata r ++ all_metadata ps <> rq_metadata f.
Proof.
  exists {| rq_type := 4; rq_stream := 1; rq_metadata := [1; 2]; rq_data := [3; 4; 5; 6; 7; 8];
            rq_follows := false; rq_complete := true; rq_initial := 1 |}, 14, 20%nat.
  eexists _, _. split; [vm_compute; reflexivity|]. vm_compute. discriminate.
Qed.
Example C10_example :
  let f := {| rq_type := 6; rq_stream := 1; rq_metadata := [1; 2; 3]; rq_data := [4; 5];
              rq_follows := false; rq_complete := true; rq_initial := 7 |} in
  fragment_request 20 f 15 = Some (Ok (Some (
    {| rq_type := 6; rq_stream := 1; rq_metadata := [1; 2]; rq_data := [];
       rq_follows := true; rq_complete := false; rq_initial := 7 |},
    [ {| pl_stream := 1; pl_metadata := [3]; pl_data := [4; 5];
         pl_follows := false; pl_complete := true; pl_next := true |} ]))).
Proof. vm_compute; reflexivity. Qed.
Print Assumptions C10_request_fragments.
Print Assumptions C10_metadata_duplicated_refuted.

(** *** C11 *)
(** At exactly the header size no number of iterations is enough. *)
Theorem C11_payload_fragment_diverges : forall f max fuel,
  9 + len (pl_metadata f) + len (pl_data f) < 2 ^ 32 ->
  max < size_payload f ->
  max = match pl_metadata f with [] => 6 | _ => 9 end ->
  fragment_payload fuel f max = None.
Proof.
  intros f max fuel Ht Hs ->. change (2 ^ 32) with 4294967296 in *.
  unfold fragment_payload.
  destruct (N.leb_spec (size_payload f) (match pl_metadata f with [] => 6 | _ => 9 end)); [lia|].
  rewrite size_payload_plain in Hs by assumption. unfold frag_size in Hs.
  destruct (pl_metadata f) as [|x md] eqn:E.
  - rewrite !len_nil in Hs, Ht. change (0 <? 0) with false in Hs. cbv iota in Hs.
    apply split_loop_stuck_data; lia.
  - rewrite <- E in *. apply split_loop_stuck_md; [rewrite E, len_cons; lia|lia].
Qed.
(** Below it the arithmetic wraps around: one fragment with everything in it,
    larger than the limit and marked as followed by another. *)
Theorem C11_payload_fragment_below_header : forall f max fuel,
  16 + len (pl_metadata f) + len (pl_data f) < 2 ^ 32 ->
  max < size_payload f ->
  max < (match pl_metadata f with [] => 6 | _ => 9 end) ->
  0 < len (pl_metadata f) + len (pl_data f) -> (1 < fuel)%nat ->
  exists p, fragment_payload fuel f max = Some [p]
    /\ pl_follows p = true /\ pl_next p = false /\ pl_complete p = false
    /\ pl_metadata p = pl_metadata f /\ pl_data p = pl_data f.
Proof.
  intros f max fuel Ht Hs Hm H0 Hf. change (2 ^ 32) with 4294967296 in *.
  unfold fragment_payload. destruct (N.leb_spec (size_payload f) max); [lia|].
  eexists. split; [apply split_loop_tiny; try assumption; try lia|cbn; auto].
  destruct (pl_metadata f) as [|x md]; [exact Hm|].
  rewrite len_cons. destruct (N.ltb_spec 0 (1 + len md)); [exact Hm|lia].
Qed.
(** From the minimum upwards it ends (for every sufficiently large bound, so
    the Go loop ends). *)
Theorem C11_payload_fragment_terminates : forall f max,
  9 + len (pl_metadata f) + len (pl_data f) < 2 ^ 32 -> max < 2 ^ 32 ->
  min_frame (pl_metadata f) <= max ->
  exists n, forall fuel, (n <= fuel)%nat -> fragment_payload fuel f max <> None.
Proof.
  intros f max Ht Hm Hmin.
  exists (S (List.length (pl_metadata f) + List.length (pl_data f))). intros fuel Hf.
  destruct (C09_payload_fragments f max fuel Ht Hm Hmin ltac:(lia)) as [A B].
  destruct (N.le_gt_cases (size_payload f) max) as [H|H].
  - rewrite A by assumption. discriminate.
  - destruct (B H) as (ps & -> & _). discriminate.
Qed.
Example C11_example :
  let f := {| pl_stream := 9; pl_metadata := [1]; pl_data := [4];
              pl_follows := false; pl_complete := true; pl_next := true |} in
  9 < size_payload f /\ fragment_payload 1000 f 9 = None
  /\ (exists p, fragment_payload 2 f 8 = Some [p] /\ pl_follows p = true).
Proof.
  split; [vm_compute; reflexivity|]. split; [vm_compute; reflexivity|].
  eexists; split; vm_compute; reflexivity.
Qed.
Print Assumptions C11_payload_fragment_diverges.
Print Assumptions C11_payload_fragment_below_header.
Print Assumptions C11_payload_fragment_terminates.
