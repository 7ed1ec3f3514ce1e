(** The decoder stays inside its buffer, and its recursive readers end. *)
From Verif Require Import Base BaseFacts MsgpackModel MsgpackSpec MsgpackProofs MsgpackValues MsgpackAny MsgpackSkip.
Local Ltac Zify.zify_post_hook ::= Z.div_mod_to_equations.

(** The bytes are bytes and the buffer is (128 KiB) smaller than 4 GiB; the
    offset is inside; the only recorded error is the range error. *)
Definition ok (r : reader) : Prop :=
  Forall (fun b => b < 256) (dr_buf r) /\ len (dr_buf r) + 131072 <= 4294967296 /\ dr_off r <= len (dr_buf r) /\
  (dr_err r = None \/ dr_err r = Some err_range).
(** No four consecutive bytes of the buffer, taken as a length (and one more
    byte, the type of an extension), reach beyond 2^32. *)
Definition calm (buf : bytes) : Prop := forall pre w post,
  buf = pre ++ w ++ post -> List.length w = 4%nat -> len pre + 5 + unbe w < 4294967296.

Definition good {A} (r : reader) (out : res A * reader) (Q : A -> reader -> Prop) : Prop :=
  ok (snd out) /\ dr_buf (snd out) = dr_buf r /\
  match fst out with
  | Panic => ~ calm (dr_buf r)
  | Ok a => Q a (snd out)
  | Err e => dr_err (snd out) = None \/ e = err_range
  end.

Lemma good_ret : forall A (a : A) r (Q : A -> reader -> Prop), ok r -> Q a r -> good r (rret a r) Q.
Proof. intros. split; [assumption|]. split; [reflexivity|assumption]. Qed.
Lemma good_err : forall A e r (Q : A -> reader -> Prop), ok r -> dr_err r = None -> good r (rerr e r) Q.
Proof. intros. split; [assumption|]. split; [reflexivity|now left]. Qed.
Lemma good_bind : forall A B (m : rd A) (k : A -> rd B) r Q1 Q2, good r (m r) Q1 ->
  (forall a r1, ok r1 -> dr_buf r1 = dr_buf r -> Q1 a r1 -> good r1 (k a r1) Q2) -> good r (rbind m k r) Q2.
Proof.
  intros A B m k r Q1 Q2 (Ho & Hb & Hq) H. unfold rbind. destruct (m r) as [[a|e|] r1]; cbn [fst snd] in *.
  - destruct (H a r1 Ho Hb Hq) as (H1 & H2 & H3). split; [exact H1|]. split; [congruence|].
    destruct (fst (k a r1)); auto. now rewrite <- Hb.
  - split; [exact Ho|]. split; [exact Hb|exact Hq].
  - split; [exact Ho|]. split; [exact Hb|exact Hq].
Qed.
Lemma good_weaken : forall A r (out : res A * reader) (Q Q' : A -> reader -> Prop),
  good r out Q -> (forall a r1, ok r1 -> dr_buf r1 = dr_buf r -> Q a r1 -> Q' a r1) -> good r out Q'.
Proof.
  intros A r out Q Q' (H1 & H2 & H3) H. split; [exact H1|]. split; [exact H2|]. destruct (fst out); auto.
Qed.

(** [check] *)
Lemma check_cases : forall n r, ok r -> n < 4294967296 ->
  (exists e, check n r = (Err e, {| dr_buf := dr_buf r; dr_off := dr_off r; dr_err := Some err_range |}) /\ e = err_range /\
     (dr_err r = Some err_range \/ len (dr_buf r) < dr_off r + n)) \/
  (check n r = (Ok tt, r) /\ dr_err r = None /\ (dr_off r + n <= len (dr_buf r) \/ 4294967296 <= dr_off r + n)).
Proof.
  intros n r (_ & Hl & Ho & He) Hn. unfold check. destruct He as [He|He]; rewrite He.
  - destruct (N.ltb_spec (u32 (len (dr_buf r))) (u32 (dr_off r + n))) as [L|L].
    + left. eexists. split; [reflexivity|]. split; [reflexivity|]. right. unfold u32 in L. lia.
    + right. split; [reflexivity|]. split; [reflexivity|]. unfold u32 in L. lia.
  - left. eexists. split; [destruct r; cbn in *; subst; reflexivity|]. split; [reflexivity|]. now left.
Qed.
Definition errored (r : reader) : reader := {| dr_buf := dr_buf r; dr_off := dr_off r; dr_err := Some err_range |}.
Lemma ok_errored : forall r, ok r -> ok (errored r).
Proof. intros r (H1 & H2 & H3 & H4). split; [exact H1|]. split; [exact H2|]. split; [exact H3|now right]. Qed.
Lemma ok_at : forall r o, ok r -> o <= len (dr_buf r) -> ok (at_off o r).
Proof. intros r o (H1 & H2 & H3 & H4) H. split; [exact H1|]. split; [exact H2|]. split; [exact H|exact H4]. Qed.
Lemma good_errored : forall A r (Q : A -> reader -> Prop), ok r -> good r (Err err_range, errored r) Q.
Proof. intros. split; [now apply ok_errored|]. split; [reflexivity|now right]. Qed.

(** Reading [k] bytes yields a window of the buffer. *)
Definition window (r r1 : reader) (k : nat) (v : N) : Prop :=
  dr_err r1 = None /\ dr_off r1 = dr_off r + N.of_nat k /\
  exists pre w post, dr_buf r = pre ++ w ++ post /\ len pre = dr_off r /\ List.length w = k /\ v = unbe w.
Lemma unbe_bytes : forall w, Forall (fun b => b < 256) w -> unbe w < 256 ^ len w.
Proof. intros w H. apply unbe_lt. exact H. Qed.
Lemma get_u_good : forall k r, (k <= 8)%nat -> ok r -> good r (get_u k r) (fun v r1 => window r r1 k v).
Proof.
  intros k r Hk Hr. destruct (check_cases (N.of_nat k) r Hr ltac:(lia)) as [(e & E & -> & _)|(E & Ee & H)]; unfold get_u; rewrite E.
  - apply good_errored. exact Hr.
  - pose proof Hr as (_ & Hl & Ho & _). assert (L : dr_off r + N.of_nat k <= len (dr_buf r)) by lia.
    set (w := takeN (N.of_nat k) (dropN (dr_off r) (dr_buf r))).
    assert (D : dropN (dr_off r) (dr_buf r) = w ++ dropN (N.of_nat k) (dropN (dr_off r) (dr_buf r))) by (unfold w; now rewrite take_drop).
    assert (Lw : List.length w = k).
    { assert (G : len w = N.of_nat k) by (unfold w; rewrite len_takeN, len_dropN; lia). unfold len in G. lia. }
    rewrite D, get_be_exact by exact Lw. rewrite u32_small by lia. cbn [fst snd].
    split; [apply ok_at; [exact Hr|lia]|]. split; [reflexivity|]. cbn [fst snd].
    split; [exact Ee|]. split; [reflexivity|].
    exists (takeN (dr_off r) (dr_buf r)), w, (dropN (N.of_nat k) (dropN (dr_off r) (dr_buf r))).
    rewrite <- D, take_drop. split; [reflexivity|]. split; [rewrite len_takeN; lia|]. now split.
Qed.
Lemma window_lt : forall r r1 k v, ok r -> window r r1 k v -> v < 256 ^ N.of_nat k.
Proof.
  intros r r1 k v (H & _) (_ & _ & pre & w & post & Hb & _ & Hw & ->). rewrite Hb in H.
  apply Forall_app in H. destruct H as [_ H]. apply Forall_app in H. destruct H as [H _].
  replace (N.of_nat k) with (len w) by (unfold len; now rewrite Hw). now apply unbe_bytes.
Qed.
(** A length [n] announced at the current position. *)
Definition announced (n : N) (r : reader) : Prop :=
  n < 4294967296 /\ (calm (dr_buf r) -> 1 + dr_off r + n < 4294967296).
Definition room (n : N) (r : reader) : Prop :=
  n < 4294967296 /\ (calm (dr_buf r) -> dr_off r + n < 4294967296).
Lemma announced_room : forall n r, announced n r -> room n r.
Proof. intros n r [H1 H2]. split; [exact H1|]. intros C. specialize (H2 C). lia. Qed.
Lemma window_announced : forall r r1 k v, (k = 1 \/ k = 2 \/ k = 4)%nat -> ok r -> ok r1 -> dr_buf r1 = dr_buf r -> window r r1 k v -> announced v r1.
Proof.
  intros r r1 k v Hk Hr Hr1 Eb W. pose proof (window_lt _ _ _ _ Hr W) as L. destruct W as (_ & Eo & pre & w & post & Hb & Hp & Hw & ->).
  destruct Hr1 as (_ & Hl & Ho & _). destruct Hk as [-> | [-> | ->]]; (split; [pows; lia|]); intros C.
  - pows. lia.
  - pows. lia.
  - rewrite Eb in C. specialize (C _ _ _ Hb Hw). rewrite Eo, <- Hp. lia.
Qed.
Lemma small_announced : forall n r, ok r -> n < 65535 -> announced n r.
Proof. intros n r (_ & Hl & Ho & _) H. split; lia. Qed.
Lemma get_bytes_good : forall n r, ok r -> room n r ->
  good r (get_bytes n r) (fun s r1 => dr_err r1 = None /\ len s = n /\ dr_off r1 = dr_off r + n).
Proof.
  intros n r Hr [Hn Ha]. destruct (check_cases n r Hr Hn) as [(e & E & -> & _)|(E & Ee & H)]; unfold get_bytes; rewrite E.
  - apply good_errored. exact Hr.
  - pose proof Hr as (_ & Hl & Ho & _). destruct H as [H|H].
    + rewrite u32_small by lia. destruct (N.leb_spec (dr_off r) (dr_off r + n)); [|lia].
      destruct (N.leb_spec (dr_off r + n) (len (dr_buf r))); [|lia]. cbn [andb].
      split; [apply ok_at; [exact Hr|lia]|]. split; [reflexivity|]. cbn [fst snd].
      split; [exact Ee|]. split; [|reflexivity]. rewrite len_takeN, len_dropN. lia.
    + destruct (N.leb_spec (dr_off r) (u32 (dr_off r + n))) as [L|L]; [unfold u32 in L; lia|]. cbn [andb].
      split; [exact Hr|]. split; [reflexivity|]. cbn [fst]. intros C. specialize (Ha C). lia.
Qed.
Lemma discard_good : forall n r, ok r -> room n r ->
  good r (discard n r) (fun _ r1 => dr_err r1 = None /\ (calm (dr_buf r) -> dr_off r1 = dr_off r + n)).
Proof.
  intros n r Hr [Hn Ha]. destruct (check_cases n r Hr Hn) as [(e & E & -> & _)|(E & Ee & H)]; unfold discard; rewrite E.
  - apply good_errored. exact Hr.
  - pose proof Hr as (_ & Hl & Ho & _). split; [apply ok_at; [exact Hr|unfold u32; lia]|]. split; [reflexivity|]. cbn [fst snd].
    split; [exact Ee|]. intros C. specialize (Ha C). cbn [at_off dr_off]. now rewrite u32_small by lia.
Qed.
Lemma peek_good : forall r, ok r -> good r (peek_u8 r) (fun b r1 => dr_err r1 = None /\ r1 = r /\ b < 256 /\ dr_off r < len (dr_buf r)).
Proof.
  intros r Hr. destruct (check_cases 1 r Hr ltac:(lia)) as [(e & E & -> & _)|(E & Ee & H)]; unfold peek_u8; rewrite E.
  - apply good_errored. exact Hr.
  - pose proof Hr as (Hb & Hl & Ho & _). assert (L : dr_off r + 1 <= len (dr_buf r)) by lia.
    destruct (dropN (dr_off r) (dr_buf r)) as [|b t] eqn:D.
    + assert (G : len (dropN (dr_off r) (dr_buf r)) = 0) by now rewrite D. rewrite len_dropN in G. lia.
    + split; [exact Hr|]. split; [reflexivity|]. cbn [fst snd]. split; [exact Ee|]. split; [reflexivity|]. split; [|lia].
      assert (Fb : Forall (fun b => b < 256) (takeN (dr_off r) (dr_buf r) ++ b :: t)) by (rewrite <- D, take_drop; exact Hb).
      apply Forall_app in Fb. destruct Fb as [_ Fb]. apply Forall_cons_iff in Fb. tauto.
Qed.

(** ** The decoder calls.  [Q]: no error is recorded and at least one byte was read. *)
Definition moved {A} (r : reader) (_ : A) (r1 : reader) : Prop := dr_err r1 = None /\ dr_off r + 1 <= dr_off r1.
Definition stays {A} (r : reader) (_ : A) (r1 : reader) : Prop := dr_err r1 = None /\ dr_off r <= dr_off r1.
Definition bounded {A} (m : rd A) : Prop := forall r, ok r -> good r (m r) (moved r).

Lemma first_byte : forall A (k : N -> rd A) r Q,
  (forall p r1, ok r1 -> dr_buf r1 = dr_buf r -> p < 256 -> dr_err r1 = None -> dr_off r1 = dr_off r + 1 -> good r1 (k p r1) Q) ->
  ok r -> good r ((p <~ get_u 1 ;; k p) r) Q.
Proof.
  intros A k r Q H Hr. apply good_bind with (fun v r1 => window r r1 1 v); [apply get_u_good; [lia|exact Hr]|].
  intros p r1 H1 Hb W. pose proof (window_lt _ _ _ _ Hr W) as L. destruct W as (He & Eo & _).
  apply H; auto.
Qed.
Lemma get_u_stays : forall k r0 r, (k <= 8)%nat -> ok r -> dr_off r0 + 1 <= dr_off r -> good r (get_u k r) (moved r0).
Proof.
  intros k r0 r Hk Hr H. apply good_weaken with (fun v r1 => window r r1 k v); [now apply get_u_good|].
  intros v r1 _ _ (He & Eo & _). split; [exact He|lia].
Qed.
Lemma get_i_stays : forall k r0 r, (k <= 8)%nat -> ok r -> dr_off r0 + 1 <= dr_off r -> good r (get_i k r) (moved r0).
Proof.
  intros k r0 r Hk Hr H. unfold get_i. apply good_bind with (moved r0); [now apply get_u_stays|].
  intros v r1 H1 _ M. apply good_ret; assumption.
Qed.
Ltac step1 r Hr := intros r Hr; apply first_byte; [|exact Hr];
  let p := fresh "p" in let r1 := fresh "r1" in
  intros p r1 Hr1 Hb Hp He Ho;
  repeat match goal with |- good _ ((if ?c then _ else _) _) _ => destruct c end.
Ltac leaf := first
  [ apply good_err; assumption
  | apply good_ret; [assumption|split; [assumption|lia]]
  | apply get_u_stays; [lia|assumption|lia]
  | apply get_i_stays; [lia|assumption|lia] ].
Lemma read_bool_bounded : bounded read_bool.
Proof. unfold read_bool. step1 r Hr; leaf. Qed.
Lemma read_int64_bounded : bounded read_int64.
Proof. unfold read_int64. step1 r Hr; leaf. Qed.
Lemma bounded_bind_ret : forall A B (m : rd A) (k : A -> rd B), bounded m ->
  (forall r0 a r, ok r -> moved r0 a r -> good r (k a r) (moved r0)) -> bounded (rbind m k).
Proof.
  intros A B m k Hm Hk r Hr. apply good_bind with (moved r); [now apply Hm|]. intros a r1 H1 _ M. now apply Hk.
Qed.
Lemma read_int_bounded : forall k, bounded (read_int k).
Proof.
  intros k. unfold read_int. apply bounded_bind_ret; [apply read_int64_bounded|].
  intros r0 v r Hr [He Ho]. cbv zeta. destruct (_ && _); leaf.
Qed.
Lemma nonneg_good : forall m r0 r, ok r -> good r (m r) (moved r0) -> good r (nonneg m r) (moved r0).
Proof.
  intros m r0 r Hr Hm. unfold nonneg. apply good_bind with (moved r0); [exact Hm|]. intros v r1 H1 _ [He Ho].
  destruct (v <? 0)%Z; leaf.
Qed.
Lemma read_uint64_bounded : bounded read_uint64.
Proof.
  unfold read_uint64. step1 r Hr; try leaf; apply nonneg_good; [assumption| |assumption| |assumption| |assumption| |assumption|]; leaf.
Qed.
Lemma read_uint_bounded : forall k, bounded (read_uint k).
Proof.
  intros k. unfold read_uint. apply bounded_bind_ret; [apply read_uint64_bounded|].
  intros r0 v r Hr [He Ho]. destruct (_ <? _); leaf.
Qed.
Lemma read_f32_bounded : forall nw, bounded (read_f32 nw).
Proof.
  intros nw. unfold read_f32. step1 r Hr; try leaf.
  apply good_bind with (moved r); [leaf|]. intros v r2 H2 _ [He2 Ho2]. leaf.
Qed.
Lemma read_f64_bounded : bounded read_f64.
Proof. unfold read_f64. step1 r Hr; leaf. Qed.

(** Lengths *)
Definition length_q (r : reader) (n : N) (r1 : reader) : Prop := moved r n r1 /\ announced n r1.
Lemma land_small : forall a m, N.land a m <= m.
Proof.
  intros a m. rewrite N.land_comm. destruct (N.eq_dec m 0) as [->|E]; [cbn; lia|].
  enough (N.land m a < 2 ^ N.size m /\ N.land m a <= m) by tauto.
  assert (G : N.ldiff (N.land m a) m = 0).
  { apply N.bits_inj. intros i. rewrite N.ldiff_spec, N.land_spec, N.bits_0. destruct (N.testbit m i), (N.testbit a i); reflexivity. }
  assert (L : N.land m a <= m).
  { apply N.ldiff_le. exact G. }
  split; [|exact L]. pose proof (N.size_gt m). lia.
Qed.
Lemma get_u_length : forall k r0 r, (k = 1 \/ k = 2 \/ k = 4)%nat -> ok r -> dr_off r0 + 1 <= dr_off r -> good r (get_u k r) (length_q r0).
Proof.
  intros k r0 r Hk Hr H. apply good_weaken with (fun v r1 => window r r1 k v); [apply get_u_good; [lia|exact Hr]|].
  intros v r1 H1 Hb W. split.
  - destruct W as (He & Eo & _). split; [exact He|lia].
  - now apply window_announced with r k.
Qed.
Definition length_reader (m : rd N) : Prop := forall r, ok r -> good r (m r) (length_q r).
Ltac lleaf := first
  [ apply good_err; assumption
  | apply good_ret; [assumption|split; [split; [assumption|lia]|apply small_announced; [assumption|]]]; match goal with |- N.land ?a ?b < _ => pose proof (land_small a b) | _ => idtac end; lia
  | apply get_u_length; [lia|assumption|lia] ].
Lemma read_str_len_good : length_reader read_str_len.
Proof. unfold read_str_len. step1 r Hr; lleaf. Qed.
Lemma read_bin_len_good : length_reader read_bin_len.
Proof. unfold read_bin_len. step1 r Hr; lleaf. Qed.
Lemma read_arr_good : length_reader read_arr.
Proof. unfold read_arr. step1 r Hr; lleaf. Qed.
Lemma read_map_good : length_reader read_map.
Proof. unfold read_map. step1 r Hr; lleaf. Qed.
Lemma take_bytes_good : forall (m : rd N) r0 r, good r (m r) (length_q r0) -> good r ((n <~ m ;; get_bytes n) r) (moved r0).
Proof.
  intros m r0 r H. apply good_bind with (length_q r0); [exact H|].
  intros n r1 H1 Hb [[He Ho] Ha]. apply good_weaken with (fun s r2 => dr_err r2 = None /\ len s = n /\ dr_off r2 = dr_off r1 + n).
  - apply get_bytes_good; [exact H1|now apply announced_room].
  - intros s r2 _ _ (E1 & E2 & E3). split; [exact E1|lia].
Qed.
Lemma read_str_bounded : bounded read_str.
Proof. intros r Hr. apply take_bytes_good. now apply read_str_len_good. Qed.
Lemma read_bin_bounded : bounded read_bin.
Proof. intros r Hr. apply take_bytes_good. now apply read_bin_len_good. Qed.
Lemma length_bounded : forall m, length_reader m -> bounded m.
Proof.
  intros m H r Hr. apply good_weaken with (length_q r); [now apply H|]. intros a r1 _ _ [M _]. exact M.
Qed.

(** ** Optional values, times *)
Lemma is_next_nil_good : forall r, ok r -> good r (is_next_nil r) (stays r).
Proof.
  intros r Hr. unfold is_next_nil. apply good_bind with (fun b r1 => dr_err r1 = None /\ r1 = r /\ b < 256 /\ dr_off r < len (dr_buf r)).
  - now apply peek_good.
  - intros b r1 H1 _ (He & -> & Hb & Hl). destruct (b =? 192).
    + destruct (discard_good 1 r Hr (announced_room _ _ (small_announced 1 r Hr ltac:(lia)))) as (D1 & D2 & D3).
      unfold discard in *. destruct (check 1 r) as [[u|e|] r2] eqn:E; cbn [fst snd] in *.
      * destruct D3 as [D3 D4]. split; [exact D1|]. split; [exact D2|]. split; [exact D3|].
        assert (r2 = r). { unfold check in E. rewrite He in E. destruct (_ <? _); congruence. } subst r2.
        cbn [at_off dr_off snd]. pose proof Hr as (_ & A & _). rewrite u32_small by lia. lia.
      * exfalso. unfold check in E. rewrite He in E. pose proof Hr as (_ & A & _). rewrite !u32_small in E by lia.
        destruct (N.ltb_spec (len (dr_buf r)) (dr_off r + 1)); [lia|discriminate].
      * exfalso. unfold check in E. rewrite He in E. destruct (_ <? _); discriminate.
    + apply good_ret; [exact Hr|]. split; [exact He|lia].
Qed.
Lemma read_nillable_good : forall A (m : rd A), bounded m -> forall r, ok r -> good r (read_nillable m r) (stays r).
Proof.
  intros A m Hm r Hr. unfold read_nillable. apply good_bind with (stays r); [now apply is_next_nil_good|].
  intros b r1 H1 _ [He Ho]. destruct b.
  - apply good_ret; [exact H1|]. now split.
  - apply good_bind with (moved r1); [now apply Hm|]. intros v r2 H2 _ [He2 Ho2]. apply good_ret; [exact H2|]. split; [exact He2|lia].
Qed.
Lemma read_uint_length : forall k r0 r, (k = 1 \/ k = 2 \/ k = 4)%nat -> ok r -> dr_off r0 <= dr_off r -> good r (read_uint k r) (length_q r0).
Proof.
  intros k r0 r Hk Hr H0. unfold read_uint. 
  apply good_bind with (fun v r1 => moved r0 v r1 /\ (v < 4294967296 -> calm (dr_buf r1) -> 1 + dr_off r1 + v < 4294967296)).
  - assert (S : forall a r1, ok r1 -> a < 128 -> dr_off r0 + 1 <= dr_off r1 -> dr_err r1 = None -> moved r0 a r1 /\ (a < 4294967296 -> calm (dr_buf r1) -> 1 + dr_off r1 + a < 4294967296)).
    { intros a r1 (_ & A & B & _) C D E. split; [split; [exact E|exact D]|]. intros. lia. }
    assert (G : forall j r1, (j = 1 \/ j = 2 \/ j = 4 \/ j = 8)%nat -> ok r1 -> dr_off r0 + 1 <= dr_off r1 ->
      good r1 (get_u j r1) (fun v r2 => moved r0 v r2 /\ (v < 4294967296 -> calm (dr_buf r2) -> 1 + dr_off r2 + v < 4294967296))).
    { intros j r1 Hj H1 Ho. apply good_weaken with (fun v r2 => window r1 r2 j v); [apply get_u_good; [lia|exact H1]|].
      intros v r2 H2 Eb W. split; [destruct W as (He & Eo & _); split; [exact He|lia]|]. intros L C.
      destruct Hj as [Hj|[Hj|[Hj|Hj]]]; try (apply (window_announced _ _ j _ ltac:(lia) H1 H2 Eb W); exact C).
      destruct W as (_ & Eo & pre & w & post & Hb & Hp & Hw & ->). subst j.
      do 8 (destruct w as [|?b w]; [discriminate|]). destruct w; [|discriminate].
      rewrite Eb in C. specialize (C (pre ++ [b; b0; b1; b2]) [b3; b4; b5; b6] post).
      assert (U : unbe [b3; b4; b5; b6] <= unbe [b; b0; b1; b2; b3; b4; b5; b6]) by (cbn [unbe fold_left]; unfold unbe; cbn [fold_left]; lia).
      rewrite len_app, !len_cons, len_nil in C. rewrite Eo, <- Hp.
      enough (len pre + (1 + (1 + (1 + (1 + 0)))) + 5 + unbe [b3; b4; b5; b6] < 4294967296 /\ unbe [b3; b4; b5; b6] = unbe [b; b0; b1; b2; b3; b4; b5; b6]) by lia.
      split; [apply C; [rewrite Hb, <- !app_assoc; reflexivity|reflexivity]|].
      unfold unbe in *. cbn [fold_left] in *.
      pose proof H1 as (F & _). rewrite Hb in F. apply Forall_app in F. destruct F as [_ F]. apply Forall_app in F. destruct F as [F _].
      repeat match goal with F : Forall _ (_ :: _) |- _ => apply Forall_cons_iff in F; destruct F as [? F] end. lia. }
    assert (GI : forall j r1, (j = 1 \/ j = 2 \/ j = 4 \/ j = 8)%nat -> ok r1 -> dr_off r0 + 1 <= dr_off r1 ->
      good r1 (nonneg (get_i j) r1) (fun v r2 => moved r0 v r2 /\ (v < 4294967296 -> calm (dr_buf r2) -> 1 + dr_off r2 + v < 4294967296))).
    { intros j r1 Hj H1 Ho. unfold nonneg, get_i.
      apply good_bind with (fun z r2 => exists v, z = of_u j v /\ v < 256 ^ N.of_nat j /\ moved r0 v r2 /\ (v < 4294967296 -> calm (dr_buf r2) -> 1 + dr_off r2 + v < 4294967296)).
      - apply good_bind with (fun v r2 => v < 256 ^ N.of_nat j /\ moved r0 v r2 /\ (v < 4294967296 -> calm (dr_buf r2) -> 1 + dr_off r2 + v < 4294967296)).
        + pose proof (G j r1 Hj H1 Ho) as (G1 & G2 & G3). pose proof (get_u_good j r1 ltac:(lia) H1) as (_ & _ & W).
          split; [exact G1|]. split; [exact G2|]. destruct (fst (get_u j r1)); auto. split; [|exact G3].
          now apply (window_lt _ _ _ _ H1 W).
        + intros v r2 H2 _ M. apply good_ret; [exact H2|]. now exists v.
      - intros z r2 H2 _ (v & -> & Lv & [M1 M2] & M). unfold of_u. cbv zeta. destruct (2 * Z.of_N v <? _)%Z eqn:E1.
        + destruct (Z.ltb_spec (Z.of_N v) 0); [lia|]. apply good_ret; [exact H2|]. rewrite N2Z.id. split; [now split|exact M].
        + destruct (Z.ltb_spec (Z.of_N v - 256 ^ Z.of_nat j) 0) as [L|L]; [apply good_err; assumption|]. exfalso.
          destruct Hj as [-> | [-> | [-> | ->]]]; pows; lia. }
    unfold read_uint64. apply first_byte; [|exact Hr]. intros p r1 H1 Hb Hp He Ho.
    repeat match goal with |- good _ ((if ?c then _ else _) _) _ => destruct c eqn:? end;
      first [ apply G; [lia|assumption|lia] | apply GI; [lia|assumption|lia] | apply good_err; assumption | idtac].
    + apply good_ret; [exact H1|]. rewrite fix_int_spec in * by lia. apply S; [exact H1| |lia|exact He]. now apply N.ltb_lt.
    + rewrite neg_fix_int_spec in * by lia. unfold nonneg, rbind, rret. rewrite of_u1.
      destruct (N.ltb_spec p 128); [match goal with H : (224 <=? p) = true |- _ => apply N.leb_le in H; lia end|].
      destruct (Z.ltb_spec (Z.of_N p - 256) 0); [apply good_err; assumption|lia].
  - intros v r1 H1 _ [[He Ho] M]. destruct (N.ltb_spec v (256 ^ N.of_nat k)) as [L|L]; [|apply good_err; assumption].
    apply good_ret; [exact H1|]. split; [now split|]. assert (v < 4294967296) by (destruct Hk as [-> | [-> | ->]]; pows; lia). split; auto.
Qed.
Lemma parse_ext_len_good : forall p r0 r, ok r -> dr_err r = None -> dr_off r0 <= dr_off r ->
  good r (parse_ext_len p r) (fun n r1 => stays r0 n r1 /\ announced n r1).
Proof.
  intros p r0 r Hr He Ho. unfold parse_ext_len.
  assert (S : forall n, n < 128 -> good r (rret n r) (fun n r1 => stays r0 n r1 /\ announced n r1)).
  { intros n Hn. apply good_ret; [exact Hr|]. split; [split; [exact He|exact Ho]|apply small_announced; [exact Hr|lia]]. }
  assert (U : forall k, (k = 1 \/ k = 2 \/ k = 4)%nat -> good r (read_uint k r) (fun n r1 => stays r0 n r1 /\ announced n r1)).
  { intros k Hk. apply good_weaken with (length_q r0); [now apply read_uint_length|].
    intros n r1 _ _ [[M1 M2] Ha]. split; [split; [exact M1|lia]|exact Ha]. }
  repeat match goal with |- good _ ((if ?c then _ else _) _) _ => destruct c end;
    first [apply S; lia | apply U; lia | apply good_err; assumption].
Qed.
Lemma ext_time_good : forall p r0 r, ok r -> dr_err r = None -> dr_off r0 <= dr_off r -> good r (ext_time p r) (moved r0).
Proof.
  intros p r0 r Hr He Ho. unfold ext_time.
  apply good_bind with (fun n r1 => stays r0 n r1 /\ announced n r1); [now apply parse_ext_len_good|].
  intros n r1 H1 _ [[M1 M2] Ha].
  apply good_bind with (fun c r2 => moved r0 c r2 /\ room n r2).
  - apply good_weaken with (fun c r2 => window r1 r2 1 c); [apply get_u_good; [lia|exact H1]|].
    intros c r2 H2 Eb (W1 & W2 & _). split; [split; [exact W1|lia]|]. destruct Ha as [Ha1 Ha2]. split; [exact Ha1|].
    rewrite Eb. intros C. specialize (Ha2 C). lia.
  - intros c r2 H2 _ [[N1 N2] Hroom]. destruct (_ || _); [|apply good_err; assumption].
    unfold decode_time. apply good_bind with (fun s r3 => dr_err r3 = None /\ len s = n /\ dr_off r3 = dr_off r2 + n); [now apply get_bytes_good|].
    intros s r3 H3 _ (E1 & _ & E3).
    repeat match goal with |- good _ ((if ?c then _ else _) _) _ => destruct c end;
      first [apply good_ret; [assumption|split; [assumption|lia]]|apply good_err; assumption].
Qed.
Lemma read_time_bounded : forall parse, (forall s, parse s <> Panic) -> bounded (read_time parse).
Proof.
  intros parse Hparse r Hr. unfold read_time.
  apply good_bind with (fun b r1 => dr_err r1 = None /\ r1 = r /\ b < 256 /\ dr_off r < len (dr_buf r)); [now apply peek_good|].
  intros p r1 _ _ (He & -> & Hp & Hl). destruct (is_string p).
  - apply good_bind with (moved r); [now apply read_str_bounded|]. intros s r2 H2 Eb [M1 M2].
    split; [exact H2|]. split; [reflexivity|]. cbn [fst snd]. specialize (Hparse s). destruct (parse s); [now split|now left|congruence].
  - assert (E : discard 1 r = (Ok tt, at_off (dr_off r + 1) r)).
    { unfold discard, check. rewrite He. pose proof Hr as (_ & A & _). rewrite !u32_small by lia.
      destruct (N.ltb_spec (len (dr_buf r)) (dr_off r + 1)); [lia|]. now rewrite u32_small by lia. }
    rewrite E. assert (G : good (at_off (dr_off r + 1) r) (ext_time p (at_off (dr_off r + 1) r)) (moved r)).
    { apply ext_time_good; [apply ok_at; [exact Hr|lia]|exact He|cbn; lia]. }
    exact G.
Qed.

(** ** Skip *)
Definition skipped (r : reader) (k : N) (r1 : reader) : Prop := k < 4294967296 /\ (calm (dr_buf r) -> dr_off r + 1 <= dr_off r1).
Lemma discard_ignore_good : forall n r0 r, n < 128 -> ok r -> dr_buf r = dr_buf r0 -> dr_off r0 + 1 <= dr_off r ->
  good r (discard_ignore n r) (skipped r0).
Proof.
  intros n r0 r Hn Hr Hb Ho. pose proof (discard_good n r Hr (announced_room _ _ (small_announced n r Hr ltac:(lia)))) as (D1 & D2 & D3).
  unfold discard_ignore. destruct (discard n r) as [[u|e|] r1] eqn:E; cbn [fst snd] in *.
  - split; [exact D1|]. split; [exact D2|]. split; [cbn; lia|]. intros C. rewrite <- Hb in C. destruct D3 as [_ D3]. cbn [snd]. rewrite (D3 C). lia.
  - split; [exact D1|]. split; [exact D2|]. split; [cbn; lia|]. intros _. cbn [snd].
    unfold discard, check in E. destruct (dr_err r); [injection E as _ <-; exact Ho|].
    destruct (_ <? _); [injection E as _ <-; exact Ho|discriminate].
  - split; [exact D1|]. split; [exact D2|exact D3].
Qed.
Lemma get_size_good : forall r, ok r -> good r (get_size r) (skipped r).
Proof.
  assert (L : forall k r0 r, (k = 1 \/ k = 2 \/ k = 4)%nat -> ok r -> dr_buf r = dr_buf r0 -> dr_off r0 + 1 <= dr_off r ->
     good r ((n <~ get_u k ;; _ <~ discard n ;; rret 0) r) (skipped r0)).
  { intros k r0 r Hk Hr Hb Ho. apply good_bind with (length_q r0); [now apply get_u_length|].
    intros n r1 H1 Eb [[M1 M2] Ha].
    apply good_bind with (fun _ r2 => dr_err r2 = None /\ (calm (dr_buf r1) -> dr_off r2 = dr_off r1 + n)); [apply discard_good; [exact H1|now apply announced_room]|].
    intros u r2 H2 Eb2 [_ D]. apply good_ret; [exact H2|]. split; [lia|]. intros C. rewrite D; [lia|now rewrite Eb, Hb]. }
  assert (U : forall k f r0 r, (k = 2 \/ k = 4)%nat -> (forall n, n < 4294967296 -> f n < 4294967296 \/ k = 2%nat /\ (n < 65536 -> f n < 131072)) -> ok r -> dr_buf r = dr_buf r0 -> dr_off r0 + 1 <= dr_off r ->
     good r ((n <~ get_u k ;; rret (f n)) r) (skipped r0)).
  { intros k f r0 r Hk Hf Hr Hb Ho. apply good_bind with (fun v r1 => window r r1 k v); [apply get_u_good; [lia|exact Hr]|].
    intros n r1 H1 Eb W. pose proof (window_lt _ _ _ _ Hr W) as Lt. destruct W as (_ & Eo & _).
    apply good_ret; [exact H1|]. split; [|intros _; lia].
    destruct Hk as [-> | ->]; pows.
    - destruct (Hf n ltac:(lia)) as [G|[_ G]]; [exact G|specialize (G Lt); lia].
    - destruct (Hf n Lt) as [G|[G _]]; [exact G|discriminate]. }
  unfold get_size. intros r Hr. apply first_byte; [|exact Hr]. intros p r1 Hr1 Hb Hp He Ho.
  repeat match goal with |- good _ ((if ?c then _ else _) _) _ => destruct c end;
  first
  [ apply good_err; assumption
  | apply good_ret; [assumption|split; [match goal with |- context [N.land ?a ?b] => pose proof (land_small a b) | _ => idtac end; lia|intros _; lia]]
  | apply discard_ignore_good; [match goal with |- context [N.land ?a ?b] => pose proof (land_small a b) | _ => idtac end; lia|assumption|assumption|lia]
  | apply L; [lia|assumption|assumption|lia]
  | idtac ].
  - apply good_weaken with (fun v r2 => window r1 r2 2 v); [apply get_u_good; [lia|exact Hr1]|].
    intros n r2 H2 Eb W. pose proof (window_lt _ _ _ _ Hr1 W) as Lt. destruct W as (_ & Eo & _). pows. split; [lia|intros _; lia].
  - apply good_weaken with (fun v r2 => window r1 r2 4 v); [apply get_u_good; [lia|exact Hr1]|].
    intros n r2 H2 Eb W. pose proof (window_lt _ _ _ _ Hr1 W) as Lt. destruct W as (_ & Eo & _). pows. split; [lia|intros _; lia].
  - apply (U 2%nat (fun n => 2 * n)); [lia| |assumption|assumption|lia]. intros n _. right. split; [reflexivity|]. lia.
  - apply (U 4%nat (fun n => u32 (2 * n))); [lia| |assumption|assumption|lia]. intros n _. left. unfold u32. lia.
Qed.
Lemma get_size_sticky : forall r e, dr_err r = Some e -> get_size r = (Err e, r).
Proof. intros r e H. unfold get_size, rbind, get_u, check. now rewrite H. Qed.

Definition ends {A} (r : reader) (o : option (res A * reader)) (P : Prop) (Q : A -> reader -> Prop) : Prop :=
  exists out, o = Some out /\ ok (snd out) /\ dr_buf (snd out) = dr_buf r /\
  match fst out with Ok a => Q a (snd out) | Err _ => True | Panic => P end.
Lemma skip_ends : forall f n r, ok r -> calm (dr_buf r) -> (N.to_nat (len (dr_buf r) - dr_off r) < f)%nat ->
  ends r (skip_n f n r) False (fun _ r1 => dr_off r + N.min n 1 <= dr_off r1).
Proof.
  induction f as [|f IH]; intros n r Hr C Hf; [lia|]. rewrite skip_n_S.
  destruct (N.eqb_spec n 0) as [->|Hn].
  { exists (Ok tt, r). split; [reflexivity|]. split; [exact Hr|]. split; [reflexivity|]. cbn [fst snd]. lia. }
  pose proof (get_size_good r Hr) as (G1 & G2 & G3). destruct (get_size r) as [[k|e|] r1] eqn:E; cbn [fst snd] in *.
  - destruct G3 as [Hk G3]. specialize (G3 C).
    assert (O1 : dr_off r1 <= len (dr_buf r)) by (destruct G1 as (_ & _ & O & _); now rewrite G2 in O).
    destruct (IH k r1 G1) as ((o1 & r2) & E1 & I1 & I2 & I3); [now rewrite G2|rewrite G2; lia|].
    rewrite E1. cbn [fst snd] in *. destruct o1 as [u|e|].
    + assert (O2 : dr_off r2 <= len (dr_buf r)) by (destruct I1 as (_ & _ & O & _); rewrite I2, G2 in O; exact O).
      destruct (IH (n - 1) r2 I1) as ((o2 & r3) & E2 & J1 & J2 & J3); [now rewrite I2, G2|rewrite I2, G2; lia|].
      rewrite E2. exists (o2, r3). split; [reflexivity|]. cbn [fst snd] in *. split; [exact J1|]. split; [congruence|].
      destruct o2; auto. lia.
    + exists (Err e, r2). split; [reflexivity|]. cbn [fst snd]. split; [exact I1|]. split; [congruence|exact I].
    + destruct I3.
  - exists (Err e, r1). split; [reflexivity|]. cbn [fst snd]. split; [exact G1|]. split; [exact G2|exact I].
  - now apply G3 in C.
Qed.

(** ** ReadAny ends on every input *)
Lemma good_ends : forall A B (r r1 : reader) (out : res A * reader) (Q : A -> reader -> Prop) (k : A -> reader -> option (res B * reader)) Q',
  good r1 out Q -> dr_buf r1 = dr_buf r ->
  (forall a r2, ok r2 -> dr_buf r2 = dr_buf r -> Q a r2 -> ends r (k a r2) True Q') ->
  ends r (orun (Some out) k) True Q'.
Proof.
  intros A B r r1 [o r2] Q k Q' (G1 & G2 & G3) Hb H. cbn [orun fst snd] in *. destruct o as [a|e|].
  - apply H; [exact G1|congruence|exact G3].
  - exists (Err e, r2). split; [reflexivity|]. cbn [fst snd]. split; [exact G1|]. split; [congruence|exact I].
  - exists (Panic, r2). split; [reflexivity|]. cbn [fst snd]. split; [exact G1|]. split; [congruence|exact I].
Qed.
Lemma ends_bind : forall A B (r r1 : reader) (o : option (res A * reader)) (Q : A -> reader -> Prop) (k : A -> reader -> option (res B * reader)) Q',
  ends r1 o True Q -> dr_buf r1 = dr_buf r ->
  (forall a r2, ok r2 -> dr_buf r2 = dr_buf r -> Q a r2 -> ends r (k a r2) True Q') ->
  ends r (orun o k) True Q'.
Proof.
  intros A B r r1 o Q k Q' ((o1 & r2) & -> & G1 & G2 & G3) Hb H. cbn [orun fst snd] in *. destruct o1 as [a|e|].
  - apply H; [exact G1|congruence|exact G3].
  - exists (Err e, r2). split; [reflexivity|]. cbn [fst snd]. split; [exact G1|]. split; [congruence|exact I].
  - exists (Panic, r2). split; [reflexivity|]. cbn [fst snd]. split; [exact G1|]. split; [congruence|exact I].
Qed.
Lemma ends_ret : forall A (r r1 : reader) (a : A) (Q : A -> reader -> Prop), ok r1 -> dr_buf r1 = dr_buf r -> Q a r1 ->
  ends r (Some (Ok a, r1)) True Q.
Proof. intros. exists (Ok a, r1). cbn [fst snd]. auto. Qed.
Definition ahead {A} (n : N) (_ : A) (r1 : reader) : Prop := n <= dr_off r1.
Lemma lift_ends : forall A (c : A -> any) (m : rd A) r r1, dr_buf r1 = dr_buf r -> good r1 (m r1) (moved r) ->
  ends r (Some ((x <~ m ;; rret (c x)) r1)) True (ahead (dr_off r + 1)).
Proof.
  intros A c m r r1 Hb H. assert (G : good r1 ((x <~ m ;; rret (c x)) r1) (moved r)).
  { apply good_bind with (moved r); [exact H|]. intros a r2 H2 _ M. apply good_ret; [exact H2|exact M]. }
  destruct ((x <~ m ;; rret (c x)) r1) as [o r2]. destruct G as (G1 & G2 & G3). cbn [fst snd] in *.
  exists (o, r2). split; [reflexivity|]. cbn [fst snd]. split; [exact G1|]. split; [congruence|].
  destruct o; [|exact I|exact I]. exact (proj2 G3).
Qed.
Lemma any_prefix_ends : forall arr mp p r r1, ok r1 -> dr_buf r1 = dr_buf r -> dr_off r1 = dr_off r + 1 -> dr_err r1 = None ->
  (forall n r2, ok r2 -> dr_buf r2 = dr_buf r -> dr_off r1 <= dr_off r2 -> ends r (arr n r2) True (ahead (dr_off r + 1))) ->
  (forall n r2, ok r2 -> dr_buf r2 = dr_buf r -> dr_off r1 <= dr_off r2 -> ends r (mp n r2) True (ahead (dr_off r + 1))) ->
  ends r (any_prefix arr mp p r1) True (ahead (dr_off r + 1)).
Proof.
  intros arr mp p r r1 Hr1 Hb Ho He Harr Hmp. unfold any_prefix.
  assert (GB : forall b, good r1 (get_bytes (N.land p b) r1) (moved r) \/ 65535 <= b).
  { intros b. destruct (N.lt_ge_cases b 65535) as [L|L]; [left|now right]. pose proof (land_small p b).
    apply good_weaken with (fun s r2 => dr_err r2 = None /\ len s = N.land p b /\ dr_off r2 = dr_off r1 + N.land p b).
    - apply get_bytes_good; [exact Hr1|]. apply announced_room, small_announced; [exact Hr1|lia].
    - intros s r2 _ _ (E1 & E2 & E3). split; [exact E1|lia]. }
  assert (GL : forall k, (k = 1 \/ k = 2 \/ k = 4)%nat -> good r1 ((n <~ get_u k ;; get_bytes n) r1) (moved r)).
  { intros k Hk. apply take_bytes_good. apply get_u_length; [exact Hk|exact Hr1|lia]. }
  assert (GN : forall k (g : N -> reader -> option (res any * reader)), (k = 2 \/ k = 4)%nat ->
     (forall n r2, ok r2 -> dr_buf r2 = dr_buf r -> dr_off r1 <= dr_off r2 -> ends r (g n r2) True (ahead (dr_off r + 1))) ->
     ends r (orun (Some (get_u k r1)) g) True (ahead (dr_off r + 1))).
  { intros k g Hk Hg. apply good_ends with (r1 := r1) (Q := fun v r2 => window r1 r2 k v); [apply get_u_good; [lia|exact Hr1]|exact Hb|].
    intros n r2 H2 Eb (_ & Eo & _). apply Hg; [exact H2|exact Eb|lia]. }
  repeat match goal with |- ends _ (if ?c then _ else _) _ _ => destruct c end;
  first
  [ apply ends_ret; [assumption|assumption|unfold ahead; lia]
  | apply lift_ends; [assumption|]; first [ apply GL; lia | apply get_u_stays; [lia|assumption|lia] | apply get_i_stays; [lia|assumption|lia]
      | match goal with |- context [N.land p ?b] => destruct (GB b) as [G|G]; [exact G|lia] end ]
  | apply Harr; [assumption|assumption|lia]
  | apply Hmp; [assumption|assumption|lia]
  | apply GN; [lia|assumption]
  | idtac ].
  eexists. split; [reflexivity|]. cbn [fst snd]. split; [exact Hr1|]. split; [exact Hb|exact I].
Qed.
Definition left_ (r : reader) : nat := N.to_nat (len (dr_buf r) - dr_off r).
Lemma left_step : forall r r1, ok r1 -> dr_buf r1 = dr_buf r -> dr_off r + 1 <= dr_off r1 -> (left_ r1 < left_ r)%nat.
Proof. intros r r1 (_ & _ & H & _) Hb Ho. unfold left_. rewrite Hb in *. lia. Qed.
Lemma left_same : forall r r1, dr_buf r1 = dr_buf r -> dr_off r <= dr_off r1 -> (left_ r1 <= left_ r)%nat.
Proof. intros r r1 Hb Ho. unfold left_. rewrite Hb in *. lia. Qed.
Lemma ends_le : forall A (r r1 : reader) (o : option (res A * reader)) a b, ends r1 o True (ahead a) -> dr_buf r1 = dr_buf r -> b <= a ->
  ends r o True (ahead b).
Proof.
  intros A r r1 o a b ((o1 & r2) & -> & G1 & G2 & G3) Hb L. exists (o1, r2). split; [reflexivity|]. cbn [fst snd] in *.
  split; [exact G1|]. split; [congruence|]. destruct o1; auto. unfold ahead in *. lia.
Qed.
Lemma read_ends : forall f,
  (forall r, ok r -> (2 * left_ r + 1 <= f)%nat -> ends r (read_any f r) True (ahead (dr_off r + 1))) /\
  (forall n r, ok r -> (2 * left_ r + 2 <= f)%nat -> ends r (read_list f n r) True (ahead (dr_off r))) /\
  (forall n m r, ok r -> (2 * left_ r + 2 <= f)%nat -> ends r (read_pairs f n m r) True (ahead (dr_off r))).
Proof.
  induction f as [|f (IA & IL & IP)].
  { split; [|split]; intros; lia. }
  split; [|split].
  - intros r Hr Hf. cbn [read_any].
    apply good_ends with (r1 := r) (Q := fun v r1 => window r r1 1 v); [apply get_u_good; [lia|exact Hr]|reflexivity|].
    intros p r1 H1 Hb (He & Ho & _). change (N.of_nat 1) with 1 in Ho.
    apply any_prefix_ends; [exact H1|exact Hb|exact Ho|exact He| |].
    + intros n r2 H2 Hb2 Ho2. pose proof (left_step r r2 H2 Hb2 ltac:(lia)) as L.
      apply ends_bind with (r1 := r2) (Q := ahead (dr_off r2)); [apply IL; [exact H2|lia]|exact Hb2|].
      intros l r3 H3 Hb3 M. apply ends_ret; [exact H3|exact Hb3|]. unfold ahead in *. lia.
    + intros n r2 H2 Hb2 Ho2. pose proof (left_step r r2 H2 Hb2 ltac:(lia)) as L.
      apply ends_bind with (r1 := r2) (Q := ahead (dr_off r2)); [apply IP; [exact H2|lia]|exact Hb2|].
      intros l r3 H3 Hb3 M. apply ends_ret; [exact H3|exact Hb3|]. unfold ahead in *. lia.
  - intros n r Hr Hf. rewrite read_list_S. destruct (n =? 0).
    + apply ends_ret; [exact Hr|reflexivity|]. unfold ahead. lia.
    + apply ends_bind with (r1 := r) (Q := ahead (dr_off r + 1)); [apply IA; [exact Hr|lia]|reflexivity|].
      intros v r1 H1 Hb1 M. unfold ahead in M. pose proof (left_step r r1 H1 Hb1 ltac:(lia)) as L.
      apply ends_bind with (r1 := r1) (Q := ahead (dr_off r1)); [apply IL; [exact H1|lia]|exact Hb1|].
      intros l r2 H2 Hb2 M2. unfold ahead in *. apply ends_ret; [exact H2|exact Hb2|]. unfold ahead. lia.
  - intros n m r Hr Hf. rewrite read_pairs_S. destruct (n =? 0).
    + apply ends_ret; [exact Hr|reflexivity|]. unfold ahead. lia.
    + apply ends_bind with (r1 := r) (Q := ahead (dr_off r + 1)); [apply IA; [exact Hr|lia]|reflexivity|].
      intros k r1 H1 Hb1 M. unfold ahead in M. pose proof (left_step r r1 H1 Hb1 ltac:(lia)) as L.
      apply ends_bind with (r1 := r1) (Q := ahead (dr_off r1 + 1)); [apply IA; [exact H1|lia]|exact Hb1|].
      intros v r2 H2 Hb2 M2. unfold ahead in M2. pose proof (left_step r r2 H2 Hb2 ltac:(lia)) as L2.
      destruct (hashable k).
      * apply (ends_le _ r r2 _ (dr_off r2) (dr_off r)); [apply IP; [exact H2|lia]|exact Hb2|lia].
      * eexists. split; [reflexivity|]. cbn [fst snd]. split; [exact H2|]. split; [exact Hb2|exact I].
Qed.

(** ** Recorded errors are returned by every later call *)
Definition rsticky {A} (m : rd A) : Prop := forall r e, dr_err r = Some e -> m r = (Err e, r).
Lemma rsticky_bind : forall A B (m : rd A) (k : A -> rd B), rsticky m -> rsticky (rbind m k).
Proof. intros A B m k H r e He. unfold rbind. now rewrite (H r e He). Qed.
Lemma get_u_rsticky : forall k, rsticky (get_u k).
Proof. intros k r e He. unfold get_u, check. now rewrite He. Qed.
Lemma peek_rsticky : rsticky peek_u8.
Proof. intros r e He. unfold peek_u8, check. now rewrite He. Qed.
(** The methods of the decoder (skip and ReadAny are recursive and come separately). *)
Inductive decoder_call : forall A, rd A -> Prop :=
| dc_nil : decoder_call bool is_next_nil
| dc_bool : decoder_call bool read_bool
| dc_int64 : decoder_call Z read_int64
| dc_int : forall k, decoder_call Z (read_int k)
| dc_uint64 : decoder_call N read_uint64
| dc_uint : forall k, decoder_call N (read_uint k)
| dc_f32 : forall nw, decoder_call N (read_f32 nw)
| dc_f64 : decoder_call N read_f64
| dc_str : decoder_call bytes read_str
| dc_bin : decoder_call bytes read_bin
| dc_arr : decoder_call N read_arr
| dc_map : decoder_call N read_map
| dc_time : forall parse, (forall s, parse s <> Panic) -> decoder_call (Z * N) (read_time parse)
| dc_nillable : forall A m, decoder_call A m -> bounded m -> decoder_call (option A) (read_nillable m).
Lemma decoder_sticky : forall A m, decoder_call A m -> rsticky m.
Proof.
  destruct 1; unfold is_next_nil, read_bool, read_int, read_int64, read_uint, read_uint64, read_f32, read_f64, read_str, read_str_len,
    read_bin, read_bin_len, read_arr, read_map, read_time, read_nillable, is_next_nil;
    repeat first [apply get_u_rsticky|apply peek_rsticky|apply rsticky_bind].
Qed.
Lemma decoder_good : forall A m, decoder_call A m -> forall r, ok r -> good r (m r) (stays r).
Proof.
  intros A m H r Hr.
  assert (W : bounded m -> good r (m r) (stays r)).
  { intros B. apply good_weaken with (moved r); [now apply B|]. intros a r1 _ _ [M1 M2]. split; [exact M1|lia]. }
  destruct H.
  - now apply is_next_nil_good.
  - apply W. apply read_bool_bounded.
  - apply W. apply read_int64_bounded.
  - apply W. apply read_int_bounded.
  - apply W. apply read_uint64_bounded.
  - apply W. apply read_uint_bounded.
  - apply W. apply read_f32_bounded.
  - apply W. apply read_f64_bounded.
  - apply W. apply read_str_bounded.
  - apply W. apply read_bin_bounded.
  - apply W. apply length_bounded, read_arr_good.
  - apply W. apply length_bounded, read_map_good.
  - apply W. now apply read_time_bounded.
  - now apply read_nillable_good.
Qed.
