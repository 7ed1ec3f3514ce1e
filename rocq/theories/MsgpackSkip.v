(** Skipping values, bounds and termination of the decoder. *)
From Verif Require Import Base BaseFacts MsgpackModel MsgpackSpec MsgpackProofs MsgpackValues MsgpackAny.
Local Ltac Zify.zify_post_hook ::= Z.div_mod_to_equations.

(** ** Skip consumes exactly one value *)
Ltac gsize := intros; unfold get_size;
  repeat match goal with
  | |- context [is_fix_int ?p] => rewrite (fix_int_spec p) by lia
  | |- context [is_neg_fix_int ?p] => rewrite (neg_fix_int_spec p) by lia
  | |- context [is_fix_str ?p] => rewrite (fix_str_spec p) by lia
  | |- context [is_fix_arr ?p] => rewrite (fix_arr_spec p) by lia
  | |- context [is_fix_map ?p] => rewrite (fix_map_spec p) by lia
  end;
  repeat match goal with
  | |- context [?a <? ?b] => destruct (N.ltb_spec a b); [|try (exfalso; lia)]; try (exfalso; lia)
  | |- context [?a <=? ?b] => destruct (N.leb_spec a b); [|try (exfalso; lia)]; try (exfalso; lia)
  end; cbn [orb andb].
Lemma discard_ignore_parses : forall n s, len s = n -> parses (discard_ignore n) s 0.
Proof.
  intros n s H pre post L. unfold discard_ignore. now rewrite (discard_parses n s H pre post L).
Qed.
Lemma head_parses : forall A (k : N -> rd A) p bs v, parses (k p) bs v -> parses (x <~ get_u 1 ;; k x) (p :: bs) v.
Proof. intros A k p bs v H. apply (bind_parses _ _ _ _ [p] bs p); [apply get_u1_parses|exact H]. Qed.
Lemma size_byte : forall b, b < 128 \/ 224 <= b < 256 \/ b = 192 \/ b = 194 \/ b = 195 -> parses get_size [b] 0.
Proof.
  intros b H. apply head_parses. cbv beta.
  destruct H as [H|[H|[H|[H|H]]]]; subst; try (cbn; apply ret_parses).
  all: gsize; apply ret_parses.
Qed.
Lemma size_num : forall p k body, num_width p k -> len body = k -> parses get_size (p :: body) 0.
Proof.
  intros p k body H L. apply head_parses. cbv beta. unfold num_width in H. cbn [In] in H.
  repeat (destruct H as [H|H]; [injection H as <- <-; cbn -[discard_ignore]; now apply discard_ignore_parses|]). destruct H.
Qed.
Lemma size_fixext : forall p k body, fixext_width p k -> len body = 1 + k -> parses get_size (p :: body) 0.
Proof.
  intros p k body H L. apply head_parses. cbv beta. unfold fixext_width in H. cbn [In] in H.
  repeat (destruct H as [H|H]; [injection H as <- <-; cbn -[discard_ignore]; now apply discard_ignore_parses|]). destruct H.
Qed.
Lemma discard_zero : forall n s, len s = n -> parses (x <~ discard n ;; rret 0) s 0.
Proof. intros. apply bind_parses_nil with tt; [now apply discard_parses|apply ret_parses]. Qed.
Lemma len_discard : forall k n s, n < 256 ^ N.of_nat k -> len s = n -> parses (x <~ get_u k ;; _ <~ discard x ;; rret 0) (be k n ++ s) 0.
Proof. intros. apply bind_parses with n; [now apply get_u_be_parses|now apply discard_zero]. Qed.
Lemma size_str : forall h s, str_form h (len s) -> parses get_size (h ++ s) 0.
Proof.
  intros h s H. remember (len s) as n eqn:En. destruct H.
  - apply (head_parses _ _ (160 + n) s). cbv beta. gsize. rewrite land_31 by assumption. now apply discard_ignore_parses.
  - apply (head_parses _ _ 217 (be 1 n ++ s)). apply (len_discard 1); auto.
  - apply (head_parses _ _ 218 (be 2 n ++ s)). apply (len_discard 2); auto.
  - apply (head_parses _ _ 219 (be 4 n ++ s)). apply (len_discard 4); auto.
Qed.
Lemma size_bin : forall h s, bin_form h (len s) -> parses get_size (h ++ s) 0.
Proof.
  intros h s H. remember (len s) as n eqn:En. destruct H.
  - apply (head_parses _ _ 196 (be 1 n ++ s)). apply (len_discard 1); auto.
  - apply (head_parses _ _ 197 (be 2 n ++ s)). apply (len_discard 2); auto.
  - apply (head_parses _ _ 198 (be 4 n ++ s)). apply (len_discard 4); auto.
Qed.
Lemma size_arr : forall h n, arr_form h n -> parses get_size h n.
Proof.
  intros h n H. destruct H.
  - apply (head_parses _ _ (144 + n) []). cbv beta. gsize. rewrite land_15 by auto. apply ret_parses.
  - apply (head_parses _ _ 220 (be 2 n)). apply (get_u_be_parses 2). assumption.
  - apply (head_parses _ _ 221 (be 4 n)). apply (get_u_be_parses 4). assumption.
Qed.
Lemma size_map : forall h n, map_form h n -> 2 * n < 4294967296 -> parses get_size h (2 * n).
Proof.
  intros h n H L. destruct H.
  - apply (head_parses _ _ (128 + n) []). cbv beta. gsize. rewrite land_15 by auto. apply ret_parses.
  - apply (head_parses _ _ 222 (be 2 n)). apply bind_parses_nil with n; [apply (get_u_be_parses 2); assumption|apply ret_parses].
  - apply (head_parses _ _ 223 (be 4 n)). apply bind_parses_nil with n; [apply (get_u_be_parses 4); assumption|].
    rewrite u32_small by lia. apply ret_parses.
Qed.
Definition skips (n : N) (bs : bytes) : Prop := fparses (fun f => skip_n f n) bs tt.
Lemma skip_n_S : forall f n r, skip_n (S f) n r =
  if n =? 0 then Some (Ok tt, r)
  else match get_size r with
       | (Ok k, r1) =>
           match skip_n f k r1 with
           | Some (Ok _, r2) => skip_n f (n - 1) r2
           | o => o
           end
       | (Err e, r1) => Some (Err e, r1)
       | (Panic, r1) => Some (Panic, r1)
       end.
Proof. reflexivity. Qed.
Lemma skips_0 : skips 0 [].
Proof. exists 1%nat. intros [|f] Hf pre post _; [lia|]. rewrite skip_n_S. cbn [N.eqb app]. now rewrite app_nil_r. Qed.
Lemma skips_cons : forall h k a n b, parses get_size h k -> skips k a -> skips n b -> skips (1 + n) (h ++ a ++ b).
Proof.
  intros h k a n b Hh (f1 & H1) (f2 & H2). exists (S (Nat.max f1 f2)). intros [|f] Hf pre post H; [lia|].
  rewrite skip_n_S. destruct (N.eqb_spec (1 + n) 0); [lia|].
  rewrite <- !app_assoc in *. rewrite !len_app in H.
  rewrite Hh by (rewrite ?len_app; lia). rewrite H1 by (rewrite ?len_app; lia).
  replace (1 + n - 1) with n by lia. rewrite H2 by (rewrite ?len_app; lia).
  now rewrite <- !app_assoc.
Qed.
Lemma skips_scalar : forall h n b, parses get_size h 0 -> skips n b -> skips (1 + n) (h ++ b).
Proof. intros h n b H1 H2. apply (skips_cons h 0 [] n b H1 skips_0 H2). Qed.
Scheme mp_value_mut := Induction for mp_value Sort Prop with mp_values_mut := Induction for mp_values Sort Prop.
Lemma value_pos : forall x a, mp_value x a -> 1 <= len a.
Proof.
  intros x a H. destruct H; lens; try lia;
    match goal with
    | F : str_form _ _ |- _ => destruct F | F : bin_form _ _ |- _ => destruct F | F : arr_form _ _ |- _ => destruct F
    | F : map_form _ _ |- _ => destruct F | F : ext_form _ _ |- _ => destruct F
    end; lens; lia.
Qed.
Lemma values_len : forall x n bs, mp_values x n bs -> n <= len bs.
Proof.
  induction 1; [cbn; lia|]. rewrite len_app. pose proof (value_pos _ _ H). lia.
Qed.
Lemma skips_small : forall n bs, (len bs < 4294967296 -> skips n bs) -> skips n bs.
Proof. intros. now apply fparses_small. Qed.
Lemma value_skips_gen : forall bs, mp_value false bs -> forall n b, skips n b -> skips (1 + n) (bs ++ b).
Proof.
  apply (mp_value_mut false (fun bs _ => forall n b, skips n b -> skips (1 + n) (bs ++ b))
           (fun k bs _ => skips k bs)).
  - intros b H n c Hc. apply skips_scalar; [now apply size_byte|exact Hc].
  - intros p k body H L n c Hc. apply skips_scalar; [now apply size_num with k|exact Hc].
  - intros h s H n c Hc. apply skips_scalar; [now apply size_str|exact Hc].
  - intros h s H n c Hc. apply skips_scalar; [now apply size_bin|exact Hc].
  - intros h k bs H _ IH n c Hc. rewrite <- app_assoc. apply skips_cons with k; [now apply size_arr|exact IH|exact Hc].
  - intros h k bs H V IH n c Hc. apply skips_small. intros L. rewrite <- app_assoc.
    pose proof (values_len _ _ _ V). rewrite !len_app in L.
    apply skips_cons with (2 * k); [apply size_map; [exact H|lia]|exact IH|exact Hc].
  - intros p k body H L n c Hc. apply skips_scalar; [now apply size_fixext with k|exact Hc].
  - intros h k body H. discriminate.
  - apply skips_0.
  - intros n a b Ha IHa Hb IHb. now apply IHa.
Qed.
Lemma value_skips : forall bs, mp_value false bs -> skips 1 bs.
Proof.
  intros bs H. pose proof (value_skips_gen bs H 0 [] skips_0) as G. now rewrite app_nil_r in G.
Qed.

(** What the encoder writes for a plain tree is one value. *)
Lemma int_value : forall z bs, int_form bs z -> mp_value false bs.
Proof.
  intros z bs H. destruct H.
  - apply v_byte. lia.
  - apply v_byte. lia.
  - apply v_num with 1; [cbn; tauto|apply len_be].
  - apply v_num with 2; [cbn; tauto|apply len_be].
  - apply v_num with 4; [cbn; tauto|apply len_be].
  - apply v_num with 8; [cbn; tauto|apply len_be].
Qed.
Lemma uint_value : forall n bs, uint_form bs n -> mp_value false bs.
Proof.
  intros n bs H. destruct H.
  - apply v_byte. lia.
  - apply v_num with 1; [cbn; tauto|apply len_be].
  - apply v_num with 2; [cbn; tauto|apply len_be].
  - apply v_num with 4; [cbn; tauto|apply len_be].
  - apply v_num with 8; [cbn; tauto|apply len_be].
Qed.
Lemma values_concat : forall A (g : A -> bytes) l, Forall (fun x => mp_value false (g x)) l ->
  mp_values false (len l) (concat (map g l)).
Proof.
  induction 1 as [|x l Hx Hl IH]; cbn [map concat]; [apply vs_nil|]. rewrite len_cons. now apply vs_cons.
Qed.
Lemma values_concat2 : forall A (g1 g2 : A -> bytes) l, Forall (fun x => mp_value false (g1 x) /\ mp_value false (g2 x)) l ->
  mp_values false (2 * len l) (concat (map (fun x => g1 x ++ g2 x) l)).
Proof.
  induction 1 as [|x l [H1 H2] Hl IH]; cbn [map concat]; [apply vs_nil|]. rewrite len_cons, <- app_assoc.
  replace (2 * (1 + len l)) with (1 + (1 + 2 * len l)) by lia. apply vs_cons; [assumption|]. now apply vs_cons.
Qed.
Lemma any_value : forall a, plain a -> len (mp_any a) < 4294967296 -> mp_value false (mp_any a).
Proof.
  induction a using any_rect'; intros P L; inversion P; subst; cbn [mp_any] in *.
  - destruct b; apply v_byte; auto.
  - apply int_value with z. now apply mp_int_shortest.
  - apply uint_value with n. now apply mp_uint_shortest.
  - apply v_num with 4; [cbn; tauto|apply len_be].
  - apply v_num with 8; [cbn; tauto|apply len_be].
  - unfold mp_str in *. rewrite len_app in L. apply v_str. apply mp_str_len_shortest. pows. lia.
  - unfold mp_bin in *. rewrite len_app in L. apply v_bin. apply mp_bin_len_shortest. pows. lia.
  - match goal with H : Forall plain l |- _ => rename H into Hl end.
    assert (N1 : len l <= len (concat (map mp_any l))) by (apply len_concat_pos; apply (Forall_impl _ mp_any_pos Hl)).
    rewrite len_app in L. apply v_arr with (len l); [apply mp_arr_shortest; pows; lia|].
    apply values_concat. rewrite Forall_forall in *. intros x Hx. apply H; auto.
    enough (len (mp_any x) <= len (concat (map mp_any l))) by lia.
    rewrite len_concat. clear - Hx. induction l as [|y l IH]; [destruct Hx|].
    cbn [map sumN fold_right]. fold (sumN (map len (map mp_any l))). destruct Hx as [->|Hx]; [lia|]. specialize (IH Hx). lia.
  - match goal with H : Forall (fun kv => plain _ /\ plain _) l |- _ => rename H into Hl end.
    assert (N1 : len l <= len (concat (map (fun kv => mp_any (fst kv) ++ mp_any (snd kv)) l))).
    { apply len_concat_pos. revert Hl. apply Forall_impl. intros kv [Hk _]. rewrite len_app.
      pose proof (mp_any_pos _ Hk). unfold bytes in *. lia. }
    rewrite len_app in L. apply v_map with (len l); [apply mp_map_shortest; pows; lia|].
    apply (values_concat2 _ (fun kv => mp_any (fst kv)) (fun kv => mp_any (snd kv))).
    rewrite Forall_forall in *. intros x Hx. destruct (H x Hx) as [I1 I2], (Hl x Hx) as [P1 P2].
    enough (len (mp_any (fst x)) + len (mp_any (snd x)) <= len (concat (map (fun kv => mp_any (fst kv) ++ mp_any (snd kv)) l))) by (split; [apply I1|apply I2]; auto; lia).
    clear - Hx. induction l as [|y l IH]; [destruct Hx|].
    cbn [map concat]. rewrite !len_app. destruct Hx as [->|Hx]; [lia|]. specialize (IH Hx). lia.
Qed.
