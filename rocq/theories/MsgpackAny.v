(** Dynamically typed values: writing, sizing, reading back, skipping. *)
From Coq Require Import Permutation.
From Verif Require Import Base BaseFacts MsgpackModel MsgpackSpec MsgpackProofs MsgpackValues.
Local Ltac Zify.zify_post_hook ::= Z.div_mod_to_equations.

Definition all {A} (P : A -> Prop) : list A -> Prop :=
  fix go l := match l with [] => True | x :: l' => P x /\ go l' end.
Lemma all_Forall : forall A (P : A -> Prop) l, all P l <-> Forall P l.
Proof.
  intros A P. induction l as [|x l IH]; cbn [all].
  - split; auto.
  - rewrite Forall_cons_iff. fold (all P l). now rewrite IH.
Qed.
Definition sumN (l : list N) : N := fold_right N.add 0 l.
Lemma sumN_app : forall a b, sumN (a ++ b) = sumN a + sumN b.
Proof. induction a; intros; cbn [app sumN fold_right]; [reflexivity|]. fold (sumN (a0 ++ b)). fold (sumN a0). rewrite IHa. lia. Qed.
Lemma sumN_perm : forall a b, Permutation a b -> sumN a = sumN b.
Proof. induction 1; cbn [sumN fold_right]; try fold (sumN l); try fold (sumN l'); lia. Qed.
Lemma len_concat : forall A (l : list (list A)), len (concat l) = sumN (map len l).
Proof. induction l as [|x l IH]; [reflexivity|]. cbn [concat map sumN fold_right]. now rewrite len_app, IH. Qed.

(** Induction over [any]. *)
Definition call_P (P : any -> Prop) (c : wcall) : Prop := match c with inl _ => True | inr a => P a end.
Lemma any_rect' : forall P : any -> Prop,
  P ANil -> (forall b, P (ABool b)) -> (forall w z, P (AInt w z)) -> (forall w n, P (AUint w n)) ->
  (forall x, P (AF32 x)) -> (forall x, P (AF64 x)) -> (forall s, P (AStr s)) -> (forall s, P (ABin s)) ->
  (forall s n, P (ATime s n)) -> (forall l, P (ATimes l)) ->
  (forall l, Forall P l -> P (AList l)) ->
  (forall l, Forall (fun kv => P (fst kv) /\ P (snd kv)) l -> P (AMap l)) ->
  (forall l, Forall (call_P P) l -> P (ACodec l)) -> P AOther ->
  forall a, P a.
Proof.
  intros P H1 H2 H3 H4 H5 H6 H7 H8 H9 H10 HL HM HC HO. fix IH 1. intros [].
  - exact H1.
  - apply H2.
  - apply H3.
  - apply H4.
  - apply H5.
  - apply H6.
  - apply H7.
  - apply H8.
  - apply H9.
  - apply H10.
  - apply HL. induction l as [|x l IHl]; [constructor|]. constructor; [apply IH|exact IHl].
  - apply HM. induction l as [|x l IHl]; [constructor|]. constructor; [split; apply IH|exact IHl].
  - apply HC. induction l as [|[p|a] l IHl]; [constructor| |]; (constructor; [|exact IHl]); cbn; [exact I|apply IH].
  - exact HO.
Qed.

(** ** The bytes written *)
Definition mp_prim (p : prim) : bytes :=
  match p with
  | PNil => [192] | PBool b => [if b then 195 else 194] | PInt z => mp_int z | PUint n => mp_uint n
  | PF32 x => 202 :: be 4 x | PF64 x => 203 :: be 8 x | PStr s => mp_str s | PBin s => mp_bin s
  | PTime s n => mp_time s n | PArr n => mp_arr n | PMap n => mp_map n
  end.
Fixpoint mp_any (a : any) : bytes :=
  match a with
  | ANil => [192; 192]
  | ABool b => [if b then 195 else 194]
  | AInt _ z => mp_int z
  | AUint _ n => mp_uint n
  | AF32 x => 202 :: be 4 x
  | AF64 x => 203 :: be 8 x
  | AStr s => mp_str s
  | ABin s => mp_bin s
  | AList l => mp_arr (len l) ++ concat (map mp_any l)
  | AMap l => mp_map (len l) ++ concat (map (fun kv => mp_any (fst kv) ++ mp_any (snd kv)) l)
  | ACodec l => concat (map (fun c => match c with inl p => mp_prim p | inr v => mp_any v end) l)
  | ATime _ _ | ATimes _ | AOther => []
  end.
Definition mp_call (c : wcall) : bytes := match c with inl p => mp_prim p | inr v => mp_any v end.
Definition mp_calls (l : list wcall) : bytes := concat (map mp_call l).

(** Values of their Go types, strings and lists below 2^32. *)
Definition wf_time (s : Z) (n : N) : Prop := fits_i 8 s /\ n < 1000000000.
Definition wf_prim (p : prim) : Prop :=
  match p with
  | PInt z => fits_i 8 z | PUint n => fits_u 8 n | PF32 x => fits_u 4 x | PF64 x => fits_u 8 x
  | PStr s | PBin s => len s < 4294967296
  | PTime s n => wf_time s n | PArr n | PMap n => fits_u 4 n
  | _ => True
  end.
Fixpoint wf_any (a : any) : Prop :=
  match a with
  | AInt _ z => fits_i 8 z | AUint _ n => fits_u 8 n | AF32 x => fits_u 4 x | AF64 x => fits_u 8 x
  | AStr s | ABin s => len s < 4294967296
  | ATime s n => wf_time s n
  | ATimes l => len l < 4294967296 /\ Forall (fun t => wf_time (fst t) (snd t)) l
  | AList l => len l < 4294967296 /\ all wf_any l
  | AMap l => len l < 4294967296 /\ all (fun kv => wf_any (fst kv) /\ wf_any (snd kv)) l
  | ACodec l => all (fun c => match c with inl p => wf_prim p | inr v => wf_any v end) l
  | _ => True
  end.
Definition wf_call (c : wcall) : Prop := match c with inl p => wf_prim p | inr v => wf_any v end.

Lemma mp_prim_writes : forall p, wf_prim p -> writes (enc_prim p) (mp_prim p).
Proof.
  intros [| b | z | n | x | x | s | s | s n | n | n] H; cbn [enc_prim mp_prim wf_prim] in *.
  - apply nil_writes.
  - apply bool_writes.
  - apply mp_int_writes.
  - apply mp_uint_writes.
  - apply f32_writes.
  - apply f64_writes.
  - now apply mp_str_writes.
  - now apply mp_bin_writes.
  - destruct H. now apply mp_time_writes.
  - apply mp_arr_writes.
  - apply mp_map_writes.
Qed.
Lemma mp_any_writes : forall a, wf_any a -> writes (enc_any a) (mp_any a).
Proof.
  induction a using any_rect'; intros H'; cbn [enc_any mp_any wf_any] in *.
  - apply (seqw_writes _ _ [192] [192]); apply nil_writes.
  - apply bool_writes.
  - apply mp_int_writes.
  - apply mp_uint_writes.
  - apply f32_writes.
  - apply f64_writes.
  - now apply mp_str_writes.
  - now apply mp_bin_writes.
  - apply ret_writes.
  - apply ret_writes.
  - destruct H' as [Hl Ha]. rewrite u32_small by exact Hl. apply seqw_writes; [apply mp_arr_writes|].
    apply seq_all_writes. apply all_Forall in Ha.
    rewrite Forall_forall in *. auto.
  - destruct H' as [Hl Ha]. rewrite u32_small by exact Hl. apply seqw_writes; [apply mp_map_writes|].
    apply (seq_all_writes _ (fun kv => enc_any (fst kv) ;;; enc_any (snd kv)) (fun kv => mp_any (fst kv) ++ mp_any (snd kv))).
    apply all_Forall in Ha.
    rewrite Forall_forall in *. intros kv Hkv. destruct (Ha kv Hkv), (H kv Hkv). apply seqw_writes; auto.
  - apply (seq_all_writes _ (fun c => match c with inl p => enc_prim p | inr v => enc_any v end) mp_call).
    apply all_Forall in H'. rewrite Forall_forall in *. intros [p|v] Hc.
    + apply mp_prim_writes. apply (H' _ Hc).
    + apply (H _ Hc). apply (H' _ Hc).
  - apply ret_writes.
Qed.
Lemma mp_calls_writes : forall l, Forall wf_call l -> writes (enc_calls l) (mp_calls l).
Proof.
  intros l H. apply seq_all_writes. rewrite Forall_forall in *. intros [p|v] Hc.
  - apply mp_prim_writes. apply (H _ Hc).
  - apply mp_any_writes. apply (H _ Hc).
Qed.

(** ** The size announced: what is written plus a surplus. *)
Definition surplus_prim (p : prim) : N :=
  match p with PBin s => if len s =? 255 then 1 else 0 | _ => 0 end.
Fixpoint surplus (a : any) : N :=
  match a with
  | ABin s => if len s =? 255 then 1 else 0
  | ATime s n => len (mp_time s n)
  | ATimes l => len (mp_arr (len l)) + sumN (map (fun t => len (mp_time (fst t) (snd t))) l)
  | AList l => sumN (map surplus l)
  | AMap l => sumN (map (fun kv => surplus (fst kv) + surplus (snd kv)) l)
  | ACodec l => sumN (map (fun c => match c with inl p => surplus_prim p | inr v => surplus v end) l)
  | _ => 0
  end.
Definition surplus_call (c : wcall) : N := match c with inl p => surplus_prim p | inr v => surplus v end.
Definition total (a : any) : N := len (mp_any a) + surplus a.

Lemma u32_plus : forall a b, plus (u32 a) (u32 b) = u32 (a + b).
Proof. intros. unfold plus, u32. lia. Qed.
Lemma u32_idem : forall a, u32 (u32 a) = u32 a.
Proof. intros. unfold u32. lia. Qed.
Lemma sum32_map : forall A (f g : A -> N) l, Forall (fun x => f x = u32 (g x)) l ->
  sum32 (map f l) = u32 (sumN (map g l)).
Proof.
  intros A f g l H. unfold sum32.
  assert (G : forall s, fold_left plus (map f l) (u32 s) = u32 (s + sumN (map g l))).
  { induction H as [|x l Hx Hl IH]; intros s; cbn [map fold_left sumN fold_right].
    - now rewrite N.add_0_r.
    - rewrite Hx, u32_plus, IH. fold (sumN (map g l)). f_equal. lia. }
  exact (G 0).
Qed.
Lemma siz_str_spec : forall s, len s < 4294967296 -> siz_str s = u32 (len (mp_str s)).
Proof.
  intros s H. unfold siz_str, mp_str. rewrite u32_small by exact H. unfold plus.
  now rewrite len_app, mp_str_len_siz.
Qed.
Lemma siz_bin_spec : forall s, len s < 4294967296 ->
  siz_bin s = u32 (len (mp_bin s) + (if len s =? 255 then 1 else 0)).
Proof.
  intros s H. unfold siz_bin, mp_bin. rewrite u32_small by exact H. rewrite len_app.
  destruct (N.eqb_spec (len s) 0) as [E|E].
  - rewrite E. reflexivity.
  - unfold plus, siz_bin_len, mp_bin_len. f_equal.
    destruct (N.ltb_spec (len s) 255), (N.leb_spec (len s) 255), (N.leb_spec (len s) 65535), (N.eqb_spec (len s) 255);
      try lia; lens; lia.
Qed.
Lemma siz_time_spec : forall s n, wf_time s n -> siz_time s n = len (mp_time s n).
Proof.
  intros s n [H1 H2]. unfold siz_time, mp_time. destruct (time_body s n H1 H2) as [E1 E2]. rewrite E2, E1.
  destruct ((0 <=? s)%Z && (s <? 4294967296)%Z && (n =? 0)); [rewrite !len_cons, len_be; reflexivity|].
  destruct ((0 <=? s)%Z && (s <? 17179869184)%Z); [rewrite !len_cons, len_be; reflexivity|].
  rewrite !len_cons, !len_app, two_to_u, !len_be. reflexivity.
Qed.
Lemma siz_prim_spec : forall p, wf_prim p -> siz_prim p = u32 (len (mp_prim p) + surplus_prim p).
Proof.
  intros [| b | z | n | x | x | s | s | s n | n | n] H; cbn [siz_prim mp_prim surplus_prim wf_prim] in *; rewrite ?N.add_0_r.
  - reflexivity.
  - reflexivity.
  - rewrite mp_int_len. unfold siz_int. repeat match goal with |- context [if ?c then _ else _] => destruct c end; reflexivity.
  - rewrite mp_uint_len. unfold siz_uint. repeat match goal with |- context [if ?c then _ else _] => destruct c end; reflexivity.
  - rewrite len_cons, len_be. reflexivity.
  - rewrite len_cons, len_be. reflexivity.
  - now apply siz_str_spec.
  - now apply siz_bin_spec.
  - rewrite siz_time_spec by exact H. unfold mp_time. symmetry. apply u32_small.
    repeat match goal with |- context [if ?c then _ else _] => destruct c end;
      rewrite ?len_cons, ?len_app, ?two_to_u, ?len_be; lia.
  - rewrite mp_arr_siz. unfold siz_arr. repeat match goal with |- context [if ?c then _ else _] => destruct c end; reflexivity.
  - rewrite mp_map_siz. unfold siz_map. repeat match goal with |- context [if ?c then _ else _] => destruct c end; reflexivity.
Qed.
Lemma siz_any_spec : forall a, wf_any a -> siz_any a = u32 (total a).
Proof.
  unfold total. induction a using any_rect'; intros H'; cbn [siz_any mp_any wf_any surplus] in *; rewrite ?N.add_0_r.
  - reflexivity.
  - reflexivity.
  - pose proof (siz_prim_spec (PInt z) H') as E. cbn [siz_prim mp_prim surplus_prim] in E. now rewrite N.add_0_r in E.
  - pose proof (siz_prim_spec (PUint n) H') as E. cbn [siz_prim mp_prim surplus_prim] in E. now rewrite N.add_0_r in E.
  - rewrite len_cons, len_be. reflexivity.
  - rewrite len_cons, len_be. reflexivity.
  - now apply siz_str_spec.
  - now apply siz_bin_spec.
  - rewrite siz_time_spec by exact H'. rewrite len_nil, N.add_0_l. symmetry. apply u32_small. unfold mp_time.
    repeat match goal with |- context [if ?c then _ else _] => destruct c end;
      rewrite ?len_cons, ?len_app, ?two_to_u, ?len_be; lia.
  - destruct H' as [Hl Ha]. rewrite len_nil, N.add_0_l, u32_small by exact Hl.
    rewrite (sum32_map _ _ (fun t => len (mp_time (fst t) (snd t)))).
    + rewrite mp_arr_siz. rewrite <- u32_plus. f_equal.
      unfold siz_arr. repeat match goal with |- context [if ?c then _ else _] => destruct c end; reflexivity.
    + rewrite Forall_forall in *. intros t Ht. rewrite siz_time_spec by (apply (Ha _ Ht)).
      symmetry. apply u32_small. unfold mp_time.
      repeat match goal with |- context [if ?c then _ else _] => destruct c end;
        rewrite ?len_cons, ?len_app, ?two_to_u, ?len_be; lia.
  - destruct H' as [Hl Ha]. rewrite u32_small by exact Hl. apply all_Forall in Ha.
    rewrite (sum32_map _ _ (fun a => len (mp_any a) + surplus a)).
    + rewrite len_app, len_concat, map_map, mp_arr_siz.
      replace (siz_arr (len l)) with (u32 (siz_arr (len l))).
      2:{ unfold siz_arr. repeat match goal with |- context [if ?c then _ else _] => destruct c end; reflexivity. }
      rewrite u32_plus. f_equal. rewrite u32_small.
      2:{ unfold siz_arr. repeat match goal with |- context [if ?c then _ else _] => destruct c end; lia. }
      rewrite <- N.add_assoc. f_equal. clear. induction l as [|x l IH]; [reflexivity|].
      cbn [map sumN fold_right]. fold (sumN (map (fun a => len (mp_any a) + surplus a) l)).
      fold (sumN (map (fun x => len (mp_any x)) l)). fold (sumN (map surplus l)). lia.
    + rewrite Forall_forall in *. auto.
  - destruct H' as [Hl Ha]. rewrite u32_small by exact Hl. apply all_Forall in Ha.
    rewrite (sum32_map _ _ (fun kv => (len (mp_any (fst kv)) + surplus (fst kv)) + (len (mp_any (snd kv)) + surplus (snd kv)))).
    + rewrite len_app, len_concat, map_map, mp_map_siz.
      replace (siz_map (len l)) with (u32 (siz_map (len l))).
      2:{ unfold siz_map. repeat match goal with |- context [if ?c then _ else _] => destruct c end; reflexivity. }
      rewrite u32_plus. f_equal. rewrite u32_small.
      2:{ unfold siz_map. repeat match goal with |- context [if ?c then _ else _] => destruct c end; lia. }
      rewrite <- N.add_assoc. f_equal. clear. induction l as [|x l IH]; [reflexivity|].
      cbn [map sumN fold_right].
      match goal with |- ?x + fold_right N.add 0 ?m = _ => fold (sumN m) end.
      match goal with |- _ = ?x + fold_right N.add 0 ?m + _ => fold (sumN m) end.
      match goal with |- _ = _ + (_ + fold_right N.add 0 ?m) => fold (sumN m) end.
      rewrite len_app. lia.
    + rewrite Forall_forall in *. intros kv Hkv. destruct (H kv Hkv) as [E1 E2], (Ha kv Hkv) as [W1 W2].
      rewrite E1, E2 by assumption. apply u32_plus.
  - apply all_Forall in H'.
    rewrite (sum32_map _ _ (fun c => len (mp_call c) + surplus_call c)).
    + f_equal. fold mp_call surplus_call. rewrite len_concat, map_map. clear. induction l as [|x l IH]; [reflexivity|].
      cbn [map sumN fold_right].
      match goal with |- ?x + fold_right N.add 0 ?m = _ => fold (sumN m) end.
      match goal with |- _ = ?x + fold_right N.add 0 ?m + _ => fold (sumN m) end.
      match goal with |- _ = _ + (_ + fold_right N.add 0 ?m) => fold (sumN m) end.
      unfold mp_call in *. unfold surplus_call in *. lia.
    + rewrite Forall_forall in *. intros [p|v] Hc.
      * apply siz_prim_spec. apply (H' _ Hc).
      * apply (H _ Hc). apply (H' _ Hc).
  - reflexivity.
Qed.
Lemma siz_call_spec : forall c, wf_call c -> siz_call c = u32 (len (mp_call c) + surplus_call c).
Proof. intros [p|v] H; [now apply siz_prim_spec|now apply siz_any_spec]. Qed.
Definition surplus_calls (l : list wcall) : N := sumN (map surplus_call l).
Lemma siz_calls_spec : forall l, Forall wf_call l -> siz_calls l 0 = u32 (len (mp_calls l) + surplus_calls l).
Proof.
  intros l H. unfold siz_calls, mp_calls, surplus_calls.
  assert (G : forall s, fold_left (fun s c => plus s (siz_call c)) l (u32 s) = u32 (s + (len (concat (map mp_call l)) + sumN (map surplus_call l)))).
  { induction H as [|c l Hc Hl IH]; intros s; cbn [fold_left map concat sumN fold_right].
    - rewrite len_nil. now rewrite !N.add_0_r.
    - rewrite siz_call_spec by exact Hc. rewrite u32_plus, IH. f_equal. rewrite len_app. fold (sumN (map surplus_call l)). lia. }
  exact (G 0).
Qed.

(** ** Iteration order of maps *)
Lemma Forall2_sum : forall A B (P : A -> B -> Prop) (f : A -> N) (g : B -> N) l l',
  Forall2 P l l' -> (forall x y, In x l -> P x y -> f x = g y) -> sumN (map f l) = sumN (map g l').
Proof.
  induction 1 as [|x y l l' Hxy Hl IH]; intros H; [reflexivity|].
  cbn [map sumN fold_right]. fold (sumN (map f l)). fold (sumN (map g l')).
  rewrite IH, (H x y); [reflexivity|now left|exact Hxy|]. intros a b Ha. apply H. now right.
Qed.
Lemma Forall2_len : forall A B (P : A -> B -> Prop) l l', Forall2 P l l' -> len l = len l'.
Proof. induction 1; [reflexivity|]. rewrite !len_cons. now f_equal. Qed.
Lemma sumN_plus : forall A (f g : A -> N) l, sumN (map (fun x => f x + g x) l) = sumN (map f l) + sumN (map g l).
Proof.
  induction l as [|x l IH]; [reflexivity|]. cbn [map sumN fold_right].
  fold (sumN (map (fun x => f x + g x) l)). fold (sumN (map f l)). fold (sumN (map g l)). lia.
Qed.
Lemma total_list : forall l, total (AList l) = len (mp_arr (len l)) + sumN (map total l).
Proof.
  intros l. unfold total at 1. cbn [mp_any surplus]. rewrite len_app, len_concat, map_map.
  unfold total. rewrite (sumN_plus _ (fun x => len (mp_any x)) surplus). lia.
Qed.
Lemma total_map : forall l, total (AMap l) = len (mp_map (len l)) + sumN (map (fun kv => total (fst kv) + total (snd kv)) l).
Proof.
  intros l. unfold total at 1. cbn [mp_any surplus]. rewrite len_app, len_concat, map_map.
  rewrite <- N.add_assoc. f_equal. rewrite <- sumN_plus. f_equal. apply map_ext. intros kv.
  rewrite len_app. unfold total. lia.
Qed.
Lemma total_codec : forall l, total (ACodec l) = sumN (map (fun c => len (mp_call c) + surplus_call c) l).
Proof.
  intros l. unfold total. cbn [mp_any surplus]. rewrite len_concat, map_map. rewrite <- sumN_plus. reflexivity.
Qed.
Lemma reorder_total : forall a b, reorder a b -> total a = total b.
Proof.
  induction a using any_rect'; intros y R; inversion R; subst; try reflexivity.
  - match goal with H : Forall2 _ _ _ |- _ => rename H into F end.
    rewrite !total_list, (Forall2_len _ _ _ _ _ F). f_equal.
    apply (Forall2_sum _ _ reorder _ _ _ _ F). intros u v Hu Huv. rewrite Forall_forall in H. now apply H.
  - match goal with H : Forall2 _ _ _ |- _ => rename H into F end.
    match goal with H : Permutation _ _ |- _ => rename H into P end.
    assert (L : len l = len m) by (unfold len; now rewrite (Permutation_length P)).
    rewrite !total_map. rewrite L, (Forall2_len _ _ _ _ _ F). f_equal.
    rewrite (sumN_perm _ _ (Permutation_map _ P)).
    apply (Forall2_sum _ _ _ _ _ _ _ F). intros u v Hu [R1 R2].
    rewrite Forall_forall in H. destruct (H u) as [I1 I2].
    + apply (Permutation_in _ (Permutation_sym P) Hu).
    + now rewrite (I1 _ R1), (I2 _ R2).
  - match goal with H : Forall2 _ _ _ |- _ => rename H into F end.
    rewrite !total_codec. apply (Forall2_sum _ _ _ _ _ _ _ F). intros u v Hu Huv.
    rewrite Forall_forall in H. specialize (H u Hu). inversion Huv; subst; [reflexivity|].
    apply (H b). assumption.
Qed.
Lemma reorder_calls_total : forall l l', Forall2 reorder_call l l' ->
  len (mp_calls l) + surplus_calls l = len (mp_calls l') + surplus_calls l'.
Proof.
  intros l l' F. unfold mp_calls, surplus_calls. rewrite !len_concat, !map_map, <- !sumN_plus.
  apply (Forall2_sum _ _ _ _ _ _ _ F). intros u v _ Huv. inversion Huv; subst; [reflexivity|].
  now apply reorder_total.
Qed.
Lemma repeat_zeros : forall n m, repeat 0 (N.to_nat (n + m)) = repeat 0 (N.to_nat n) ++ repeat 0 (N.to_nat m).
Proof. intros. rewrite N2Nat.inj_add. apply repeat_app. Qed.
Lemma len_repeat : forall n, len (repeat 0 (N.to_nat n)) = n.
Proof. intros. unfold len. rewrite repeat_length. lia. Qed.
Lemma enc_calls_sized : forall l l', Forall wf_call l -> Forall wf_call l' -> Forall2 reorder_call l l' ->
  len (mp_calls l') + surplus_calls l' < 4294967296 ->
  enc_calls l' (new_reader (repeat 0 (N.to_nat (siz_calls l 0)))) =
  Ok (at_ (mp_calls l') (repeat 0 (N.to_nat (surplus_calls l')))).
Proof.
  intros l l' W W' F L. rewrite siz_calls_spec by exact W. rewrite (reorder_calls_total _ _ F).
  rewrite u32_small by exact L. rewrite repeat_zeros.
  destruct (mp_calls_writes l' W') as (E & _ & _).
  assert (Z : len (repeat 0 (N.to_nat (len (mp_calls l')))) = len (mp_calls l')) by apply len_repeat.
  specialize (E [] (repeat 0 (N.to_nat (len (mp_calls l')))) (repeat 0 (N.to_nat (surplus_calls l'))) Z).
  cbn [app] in E. apply E. rewrite len_app, !len_repeat. exact L.
Qed.
Lemma to_bytes_spec : forall l l', Forall wf_call l -> Forall wf_call l' -> Forall2 reorder_call l l' ->
  len (mp_calls l') + surplus_calls l' < 4294967296 ->
  to_bytes l l' = Ok (mp_calls l' ++ repeat 0 (N.to_nat (surplus_calls l'))) /\
  to_bytes_checked l l' = Ok (mp_calls l' ++ repeat 0 (N.to_nat (surplus_calls l'))).
Proof.
  intros l l' W W' F L. unfold to_bytes, to_bytes_checked. rewrite (enc_calls_sized _ _ W W' F L). now split.
Qed.

(** ** Reading values back *)
Definition fparses {A} (d : nat -> reader -> option (res A * reader)) (bs : bytes) (v : A) : Prop :=
  exists f0, forall f, (f0 <= f)%nat -> forall pre post, len (pre ++ bs ++ post) < 4294967296 ->
  d f (at_ pre (bs ++ post)) = Some (Ok v, at_ (pre ++ bs) post).
Lemma read_any_step : forall f p bs pre post, len (pre ++ (p :: bs) ++ post) < 4294967296 ->
  read_any (S f) (at_ pre ((p :: bs) ++ post)) =
  any_prefix (fun n r => orun (read_list f n r) (fun l r => Some (Ok (AList l), r)))
             (fun n r => orun (read_pairs f n [] r) (fun l r => Some (Ok (AMap l), r))) p (at_ (pre ++ [p]) (bs ++ post)).
Proof.
  intros f p bs pre post H. cbn [read_any].
  change ((p :: bs) ++ post) with ([p] ++ (bs ++ post)) in *.
  rewrite (get_u1_parses p pre (bs ++ post) H). reflexivity.
Qed.
Lemma any_scalar : forall p (m : rd any) bs v,
  (forall arr mp r, any_prefix arr mp p r = Some (m r)) -> parses m bs v -> fparses read_any (p :: bs) v.
Proof.
  intros p m bs v Hp Hm. exists 1%nat. intros [|f] Hf pre post H; [lia|].
  rewrite read_any_step by exact H. rewrite Hp. f_equal.
  rewrite !len_app, len_cons in H.
  rewrite Hm by (rewrite !len_app, len_cons, len_nil; lia).
  do 2 f_equal. rewrite <- app_assoc. reflexivity.
Qed.
Lemma lift_parses : forall A (m : rd A) (c : A -> any) bs v, parses m bs v -> parses (x <~ m ;; rret (c x)) bs (c v).
Proof. intros. apply bind_parses_nil with v; [assumption|apply ret_parses]. Qed.
Lemma rret_some : forall A (v : A) r, Some (rret v r) = Some (Ok v, r).
Proof. reflexivity. Qed.


Ltac prefix := intros; unfold any_prefix;
  repeat match goal with
  | |- context [is_fix_int ?p] => rewrite (fix_int_spec p) by lia
  | |- context [is_neg_fix_int ?p] => rewrite (neg_fix_int_spec p) by lia
  | |- context [is_fix_str ?p] => rewrite (fix_str_spec p) by lia
  | |- context [is_fix_arr ?p] => rewrite (fix_arr_spec p) by lia
  | |- context [is_fix_map ?p] => rewrite (fix_map_spec p) by lia
  end;
  repeat match goal with
  | |- context [?a <? ?b] => destruct (N.ltb_spec a b); [|try (exfalso; lia)]; try (exfalso; lia)
  | |- context [?a <=? ?b] => destruct (N.leb_spec a b); [|try (exfalso; lia)]; try (exfalso; lia)
  end; cbn [orb andb].
Lemma of_u1 : forall n, of_u 1 n = if n <? 128 then Z.of_N n else (Z.of_N n - 256)%Z.
Proof.
  intros n. unfold of_u. cbv zeta. change (256 ^ Z.of_nat 1)%Z with 256%Z.
  destruct (N.ltb_spec n 128), (Z.ltb_spec (2 * Z.of_N n) 256); lia.
Qed.
Lemma any_int : forall z, fits_i 8 z -> fparses read_any (mp_int z) (norm_int z).
Proof.
  intros z H. pows. unfold norm_int, mp_int.
  destruct (Z.leb_spec 0 z); destruct (Z.ltb_spec z 128); destruct (Z.leb_spec (-32) z); try lia; cbn [andb].
  { apply any_scalar with (m := rret (AInt 8 z)); [|apply ret_parses]. prefix.
    unfold rret. do 4 f_equal. rewrite of_u1. destruct (N.ltb_spec (Z.to_N z) 128); lia. }
  all: destruct (Z.ltb_spec z 0); try lia; cbn [andb].
  1:{ destruct (Z.leb_spec z 32767); destruct (Z.leb_spec (-32768) z); destruct (Z.leb_spec (-128) z); destruct (Z.ltb_spec z 32768); try lia; cbn [andb].
      all: destruct (Z.leb_spec z 127); try lia; cbn [andb].
      { apply any_scalar with (m := (x <~ get_i 2 ;; rret (AInt 2 x))); [reflexivity|]. apply lift_parses, get_i_parses. pows. lia. }
      destruct (Z.leb_spec z 2147483647); destruct (Z.leb_spec (-2147483648) z); destruct (Z.ltb_spec z 2147483648); try lia; cbn [andb].
      { apply any_scalar with (m := (x <~ get_i 4 ;; rret (AInt 4 x))); [reflexivity|]. apply lift_parses, get_i_parses. pows. lia. }
      { apply any_scalar with (m := (x <~ get_i 8 ;; rret (AInt 8 x))); [reflexivity|]. apply lift_parses, get_i_parses. pows. lia. } }
  { apply any_scalar with (m := rret (AInt 8 z)); [|apply ret_parses]. prefix.
    all: unfold rret; do 4 f_equal; rewrite of_u1; destruct (N.ltb_spec (Z.to_N (256 + z)) 128); lia. }
  destruct (Z.leb_spec z 127); destruct (Z.leb_spec (-128) z); try lia; cbn [andb].
  { apply any_scalar with (m := (x <~ get_i 1 ;; rret (AInt 1 x))); [reflexivity|]. apply lift_parses, get_i_parses. pows. lia. }
  destruct (Z.leb_spec z 32767); destruct (Z.leb_spec (-32768) z); destruct (Z.ltb_spec z 32768); try lia; cbn [andb].
  { apply any_scalar with (m := (x <~ get_i 2 ;; rret (AInt 2 x))); [reflexivity|]. apply lift_parses, get_i_parses. pows. lia. }
  destruct (Z.leb_spec z 2147483647); destruct (Z.leb_spec (-2147483648) z); destruct (Z.ltb_spec z 2147483648); try lia; cbn [andb].
  { apply any_scalar with (m := (x <~ get_i 4 ;; rret (AInt 4 x))); [reflexivity|]. apply lift_parses, get_i_parses. pows. lia. }
  { apply any_scalar with (m := (x <~ get_i 8 ;; rret (AInt 8 x))); [reflexivity|]. apply lift_parses, get_i_parses. pows. lia. }
Qed.

Lemma any_uint : forall n, fits_u 8 n -> fparses read_any (mp_uint n) (norm_uint n).
Proof.
  intros n H. pows. unfold norm_uint, mp_uint.
  destruct (N.ltb_spec n 128).
  { apply any_scalar with (m := rret (AInt 8 (Z.of_N n))); [|apply ret_parses]. prefix.
    unfold rret. do 4 f_equal. rewrite of_u1. destruct (N.ltb_spec n 128); lia. }
  destruct (N.leb_spec n 255); destruct (N.ltb_spec n 256); try lia.
  { apply any_scalar with (m := (x <~ get_u 1 ;; rret (AUint 1 x))); [reflexivity|]. apply lift_parses, get_u_be_parses. pows. lia. }
  destruct (N.leb_spec n 65535); destruct (N.ltb_spec n 65536); try lia.
  { apply any_scalar with (m := (x <~ get_u 2 ;; rret (AUint 2 x))); [reflexivity|]. apply lift_parses, get_u_be_parses. pows. lia. }
  destruct (N.leb_spec n 4294967295); destruct (N.ltb_spec n 4294967296); try lia.
  { apply any_scalar with (m := (x <~ get_u 4 ;; rret (AUint 4 x))); [reflexivity|]. apply lift_parses, get_u_be_parses. pows. lia. }
  { apply any_scalar with (m := (x <~ get_u 8 ;; rret (AUint 8 x))); [reflexivity|]. apply lift_parses, get_u_be_parses. pows. lia. }
Qed.
Lemma any_str : forall h s, str_form h (len s) -> fparses read_any (h ++ s) (AStr s).
Proof.
  intros h s H. remember (len s) as n eqn:En. destruct H; pows.
  - apply (any_scalar (160 + n) (x <~ get_bytes n ;; rret (AStr x)) s); [|apply lift_parses, get_bytes_parses; lia].
    prefix. now rewrite land_31 by assumption.
  - apply (any_scalar 217 (x <~ (n <~ get_u 1 ;; get_bytes n) ;; rret (AStr x)) (be 1 n ++ s)); [reflexivity|].
    apply lift_parses. apply bind_parses with n; [apply get_u_be_parses; pows; lia|apply get_bytes_parses; lia].
  - apply (any_scalar 218 (x <~ (n <~ get_u 2 ;; get_bytes n) ;; rret (AStr x)) (be 2 n ++ s)); [reflexivity|].
    apply lift_parses. apply bind_parses with n; [apply get_u_be_parses; pows; lia|apply get_bytes_parses; lia].
  - apply (any_scalar 219 (x <~ (n <~ get_u 4 ;; get_bytes n) ;; rret (AStr x)) (be 4 n ++ s)); [reflexivity|].
    apply lift_parses. apply bind_parses with n; [apply get_u_be_parses; pows; lia|apply get_bytes_parses; lia].
Qed.
Lemma any_bin : forall h s, bin_form h (len s) -> fparses read_any (h ++ s) (ABin s).
Proof.
  intros h s H. remember (len s) as n eqn:En. destruct H; pows.
  - apply (any_scalar 196 (x <~ (n <~ get_u 1 ;; get_bytes n) ;; rret (ABin x)) (be 1 n ++ s)); [reflexivity|].
    apply lift_parses. apply bind_parses with n; [apply get_u_be_parses; pows; lia|apply get_bytes_parses; lia].
  - apply (any_scalar 197 (x <~ (n <~ get_u 2 ;; get_bytes n) ;; rret (ABin x)) (be 2 n ++ s)); [reflexivity|].
    apply lift_parses. apply bind_parses with n; [apply get_u_be_parses; pows; lia|apply get_bytes_parses; lia].
  - apply (any_scalar 198 (x <~ (n <~ get_u 4 ;; get_bytes n) ;; rret (ABin x)) (be 4 n ++ s)); [reflexivity|].
    apply lift_parses. apply bind_parses with n; [apply get_u_be_parses; pows; lia|apply get_bytes_parses; lia].
Qed.

Lemma read_list_S : forall f n r, read_list (S f) n r =
  if n =? 0 then Some (Ok [], r)
  else orun (read_any f r) (fun v r => orun (read_list f (n - 1) r) (fun l r => Some (Ok (v :: l), r))).
Proof. reflexivity. Qed.
Lemma read_pairs_S : forall f n m r, read_pairs (S f) n m r =
  if n =? 0 then Some (Ok m, r)
  else orun (read_any f r) (fun k r =>
       orun (read_any f r) (fun v r =>
       if hashable k then read_pairs f (n - 1) (map_put k v m) r else Some (Panic, r))).
Proof. reflexivity. Qed.
Lemma list_fparses : forall A (g : A -> bytes) (h : A -> any) l, Forall (fun x => fparses read_any (g x) (h x)) l ->
  fparses (fun f => read_list f (len l)) (concat (map g l)) (map h l).
Proof.
  intros A g h. induction 1 as [|x l (f1 & H1) Hl (f2 & IH)].
  - exists 1%nat. intros [|f] Hf pre post _; [lia|]. rewrite read_list_S. cbn [map concat app].
    now rewrite app_nil_r.
  - exists (S (Nat.max f1 f2)). intros [|f] Hf pre post H; [lia|]. rewrite read_list_S. cbn [map concat] in *.
    rewrite len_cons. destruct (N.eqb_spec (1 + len l) 0); [lia|].
    rewrite <- app_assoc in *. rewrite !len_app in H.
    rewrite H1 by (rewrite ?len_app; lia). cbn [orun].
    replace (1 + len l - 1) with (len l) by lia.
    rewrite IH by (rewrite ?len_app; lia). cbn [orun]. now rewrite app_assoc.
Qed.
Lemma map_put_new : forall k v m, Forall (fun kv => key_eq (fst kv) k = false) m -> map_put k v m = m ++ [(k, v)].
Proof.
  intros k v. induction 1 as [|[k' v'] m H Hm IH]; [reflexivity|]. cbn [map_put fst app] in *. now rewrite H, IH.
Qed.
Lemma pairs_fparses : forall A (g1 g2 : A -> bytes) (h1 h2 : A -> any) l,
  Forall (fun x => fparses read_any (g1 x) (h1 x) /\ fparses read_any (g2 x) (h2 x)) l ->
  Forall (fun x => hashable (h1 x) = true) l -> distinct_keys (map h1 l) ->
  forall m, Forall (fun x => Forall (fun kv => key_eq (fst kv) (h1 x) = false) m) l ->
  fparses (fun f => read_pairs f (len l) m) (concat (map (fun x => g1 x ++ g2 x) l)) (m ++ map (fun x => (h1 x, h2 x)) l).
Proof.
  intros A g1 g2 h1 h2. induction l as [|x l IH]; intros HP HH HD m HM.
  - exists 1%nat. intros [|f] Hf pre post _; [lia|]. rewrite read_pairs_S. cbn [map concat app].
    now rewrite !app_nil_r.
  - apply Forall_cons_iff in HP. destruct HP as [[(f1 & H1) (f2 & H2)] HP].
    apply Forall_cons_iff in HH. destruct HH as [Hx HH]. cbn [map distinct_keys] in HD. destruct HD as [HD1 HD].
    apply Forall_cons_iff in HM. destruct HM as [HM1 HM].
    destruct (IH HP HH HD (m ++ [(h1 x, h2 x)])) as (f3 & H3).
    { rewrite Forall_forall in *. intros y Hy. rewrite Forall_forall. intros kv Hkv.
      apply in_app_or in Hkv. destruct Hkv as [Hkv|[<-|[]]].
      - specialize (HM y Hy). rewrite Forall_forall in HM. now apply HM.
      - cbn [fst]. apply HD1. now apply in_map. }
    exists (S (Nat.max f1 (Nat.max f2 f3))). intros [|f] Hf pre post H; [lia|]. rewrite read_pairs_S. cbn [map concat] in *.
    rewrite len_cons. destruct (N.eqb_spec (1 + len l) 0); [lia|].
    rewrite <- !app_assoc in *. rewrite !len_app in H.
    rewrite H1 by (rewrite ?len_app; lia). cbn [orun].
    rewrite H2 by (rewrite ?len_app; lia). cbn [orun]. rewrite Hx.
    replace (1 + len l - 1) with (len l) by lia. rewrite map_put_new by exact HM1.
    rewrite H3 by (rewrite ?len_app; lia). rewrite <- !app_assoc. reflexivity.
Qed.
Lemma fparses_header : forall h n bs l,
  (forall pre post, len (pre ++ (h ++ bs) ++ post) < 4294967296 -> forall f,
     read_any (S f) (at_ pre ((h ++ bs) ++ post)) = orun (read_list f n (at_ (pre ++ h) (bs ++ post))) (fun l r => Some (Ok (AList l), r))) ->
  fparses (fun f => read_list f n) bs l -> fparses read_any (h ++ bs) (AList l).
Proof.
  intros h n bs l Hh (f0 & H0). exists (S f0). intros [|f] Hf pre post H; [lia|].
  rewrite Hh by exact H. rewrite !len_app in H. rewrite H0 by (rewrite ?len_app; lia). cbn [orun]. now rewrite <- app_assoc.
Qed.
Lemma fparses_mheader : forall h n bs l,
  (forall pre post, len (pre ++ (h ++ bs) ++ post) < 4294967296 -> forall f,
     read_any (S f) (at_ pre ((h ++ bs) ++ post)) = orun (read_pairs f n [] (at_ (pre ++ h) (bs ++ post))) (fun l r => Some (Ok (AMap l), r))) ->
  fparses (fun f => read_pairs f n []) bs l -> fparses read_any (h ++ bs) (AMap l).
Proof.
  intros h n bs l Hh (f0 & H0). exists (S f0). intros [|f] Hf pre post H; [lia|].
  rewrite Hh by exact H. rewrite !len_app in H. rewrite H0 by (rewrite ?len_app; lia). cbn [orun]. now rewrite <- app_assoc.
Qed.
Lemma arr_header : forall h n bs, arr_form h n -> forall pre post, len (pre ++ (h ++ bs) ++ post) < 4294967296 -> forall f,
  read_any (S f) (at_ pre ((h ++ bs) ++ post)) = orun (read_list f n (at_ (pre ++ h) (bs ++ post))) (fun l r => Some (Ok (AList l), r)).
Proof.
  intros h n bs F pre post H f. destruct F; pows.
  - change ([144 + n] ++ bs) with ((144 + n) :: bs) in *. rewrite read_any_step by exact H. prefix.
    now rewrite land_15 by (auto; assumption).
  - change ((220 :: be 2 n) ++ bs) with (220 :: (be 2 n ++ bs)) in *. rewrite read_any_step by exact H.
    rewrite !len_app, len_cons, !len_app in H.
    unfold any_prefix. cbn -[get_u orun be app]. rewrite <- app_assoc. rewrite get_u_be_parses; [|pows; lia|rewrite !len_app, len_cons, len_nil; lia].
    cbn [orun]. rewrite <- app_assoc. reflexivity.
  - change ((221 :: be 4 n) ++ bs) with (221 :: (be 4 n ++ bs)) in *. rewrite read_any_step by exact H.
    rewrite !len_app, len_cons, !len_app in H.
    unfold any_prefix. cbn -[get_u orun be app]. rewrite <- app_assoc. rewrite get_u_be_parses; [|pows; lia|rewrite !len_app, len_cons, len_nil; lia].
    cbn [orun]. rewrite <- app_assoc. reflexivity.
Qed.
Lemma map_header : forall h n bs, map_form h n -> forall pre post, len (pre ++ (h ++ bs) ++ post) < 4294967296 -> forall f,
  read_any (S f) (at_ pre ((h ++ bs) ++ post)) = orun (read_pairs f n [] (at_ (pre ++ h) (bs ++ post))) (fun l r => Some (Ok (AMap l), r)).
Proof.
  intros h n bs F pre post H f. destruct F; pows.
  - change ([128 + n] ++ bs) with ((128 + n) :: bs) in *. rewrite read_any_step by exact H. prefix.
    now rewrite land_15 by (auto; assumption).
  - change ((222 :: be 2 n) ++ bs) with (222 :: (be 2 n ++ bs)) in *. rewrite read_any_step by exact H.
    rewrite !len_app, len_cons, !len_app in H.
    unfold any_prefix. cbn -[get_u orun be app]. rewrite <- app_assoc. rewrite get_u_be_parses; [|pows; lia|rewrite !len_app, len_cons, len_nil; lia].
    cbn [orun]. rewrite <- app_assoc. reflexivity.
  - change ((223 :: be 4 n) ++ bs) with (223 :: (be 4 n ++ bs)) in *. rewrite read_any_step by exact H.
    rewrite !len_app, len_cons, !len_app in H.
    unfold any_prefix. cbn -[get_u orun be app]. rewrite <- app_assoc. rewrite get_u_be_parses; [|pows; lia|rewrite !len_app, len_cons, len_nil; lia].
    cbn [orun]. rewrite <- app_assoc. reflexivity.
Qed.
Lemma norm_hashable : forall a, hashable (norm a) = hashable a.
Proof.
  intros []; try reflexivity; cbn [norm]; unfold norm_int, norm_uint;
    repeat match goal with |- context [if ?c then _ else _] => destruct c end; reflexivity.
Qed.
(** Every tree that survives: its encoding is read back as the normalised tree.
    The size of the encoding bounds the lengths in it. *)
Lemma fparses_small : forall A (d : nat -> reader -> option (res A * reader)) bs v,
  (len bs < 4294967296 -> fparses d bs v) -> fparses d bs v.
Proof.
  intros A d bs v H. destruct (N.lt_ge_cases (len bs) 4294967296) as [L|L]; [auto|].
  exists O. intros f _ pre post G. rewrite !len_app in G. lia.
Qed.
Lemma mp_any_pos : forall a, plain a -> 1 <= len (mp_any a).
Proof.
  intros a H. destruct H; cbn [mp_any]; unfold mp_str, mp_bin.
  - lens. lia.
  - unfold mp_int. repeat match goal with |- context [if ?c then _ else _] => destruct c end; lens; lia.
  - unfold mp_uint. repeat match goal with |- context [if ?c then _ else _] => destruct c end; lens; lia.
  - lens. lia.
  - lens. lia.
  - unfold mp_str_len. repeat match goal with |- context [if ?c then _ else _] => destruct c end; rewrite len_app; lens; lia.
  - unfold mp_bin_len. repeat match goal with |- context [if ?c then _ else _] => destruct c end; rewrite len_app; lens; lia.
  - unfold mp_arr. repeat match goal with |- context [if ?c then _ else _] => destruct c end; rewrite len_app; lens; lia.
  - unfold mp_map. repeat match goal with |- context [if ?c then _ else _] => destruct c end; rewrite len_app; lens; lia.
Qed.
Lemma len_concat_pos : forall A (g : A -> bytes) l, Forall (fun x => 1 <= len (g x)) l -> len l <= len (concat (map g l)).
Proof.
  induction 1 as [|x l Hx Hl IH]; [cbn; lia|]. cbn [map concat]. rewrite len_cons, len_app. lia.
Qed.
Lemma any_fparses : forall a, plain a -> fparses read_any (mp_any a) (norm a).
Proof.
  induction a using any_rect'; intros P; inversion P; subst; cbn [mp_any norm].
  - apply any_scalar with (m := rret (ABool b)); [destruct b; reflexivity|apply ret_parses].
  - now apply any_int.
  - now apply any_uint.
  - apply any_scalar with (m := (x <~ get_u 4 ;; rret (AF32 x))); [reflexivity|]. apply lift_parses, get_u_be_parses. pows. lia.
  - apply any_scalar with (m := (x <~ get_u 8 ;; rret (AF64 x))); [reflexivity|]. apply lift_parses, get_u_be_parses. pows. lia.
  - apply fparses_small. intros L. unfold mp_str in *. rewrite len_app in L.
    apply any_str. apply mp_str_len_shortest. pows. lia.
  - apply fparses_small. intros L. unfold mp_bin in *. rewrite len_app in L.
    apply any_bin. apply mp_bin_len_shortest. pows. lia.
  - apply fparses_small. intros L. rewrite len_app in L.
    match goal with H : Forall plain l |- _ => rename H into Hl end.
    assert (N1 : len l <= len (concat (map mp_any l))).
    { apply len_concat_pos. apply (Forall_impl _ mp_any_pos Hl). }
    apply (fparses_header _ (len l)).
    + apply arr_header. apply mp_arr_shortest. pows. lia.
    + apply list_fparses. rewrite Forall_forall in *. auto.
  - apply fparses_small. intros L. rewrite len_app in L.
    match goal with H : Forall (fun kv => plain _ /\ plain _) l |- _ => rename H into Hl end.
    assert (N1 : len l <= len (concat (map (fun kv => mp_any (fst kv) ++ mp_any (snd kv)) l))).
    { apply len_concat_pos. apply (Forall_impl _ (fun kv (H : plain (fst kv) /\ plain (snd kv)) =>
        ltac:(rewrite len_app; pose proof (mp_any_pos _ (proj1 H)); lia) : 1 <= len (mp_any (fst kv) ++ mp_any (snd kv))) Hl). }
    apply (fparses_mheader _ (len l)).
    + apply map_header. apply mp_map_shortest. pows. lia.
    + apply (pairs_fparses _ (fun kv => mp_any (fst kv)) (fun kv => mp_any (snd kv)) (fun kv => norm (fst kv)) (fun kv => norm (snd kv))).
      * rewrite Forall_forall in *. intros kv Hkv. destruct (H kv Hkv), (Hl kv Hkv). auto.
      * match goal with H : Forall (fun kv => hashable _ = true) l |- _ => rename H into Hh end.
        rewrite Forall_forall in *. intros kv Hkv. rewrite norm_hashable. auto.
      * assumption.
      * rewrite Forall_forall. intros kv _. constructor.
Qed.
