From Verif Require Import Base BaseFacts MsgpackModel MsgpackSpec MsgpackProofs MsgpackValues MsgpackAny MsgpackSkip RecordModel.
Local Ltac Zify.zify_post_hook ::= Z.div_mod_to_equations.

(** Specification: one field on the wire and what it does to the record. *)
Inductive field_form : bytes -> (greeting -> greeting) -> Prop :=
| ff_first : forall h1 h2 s, str_form h1 (len first_name) -> str_form h2 (len s) ->
    field_form ((h1 ++ first_name) ++ h2 ++ s) (fun g => {| g_first := s; g_last := g_last g |})
| ff_last : forall h1 h2 s, str_form h1 (len last_name) -> str_form h2 (len s) ->
    field_form ((h1 ++ last_name) ++ h2 ++ s) (fun g => {| g_first := g_first g; g_last := s |})
| ff_unknown : forall h name v, name <> first_name -> name <> last_name -> str_form h (len name) -> mp_value false v ->
    field_form ((h ++ name) ++ v) (fun g => g).

Lemma bytes_eqb_spec : forall a b, bytes_eqb a b = true <-> a = b.
Proof.
  induction a as [|x a IH]; intros [|y b]; cbn [bytes_eqb]; split; try discriminate; try reflexivity.
  - intros H. apply andb_true_iff in H. destruct H as [H1 H2]. apply N.eqb_eq in H1. apply IH in H2. now subst.
  - intros [= -> ->]. rewrite N.eqb_refl. now apply IH.
Qed.
Lemma bytes_eqb_neq : forall a b, a <> b -> bytes_eqb a b = false.
Proof. intros a b H. destruct (bytes_eqb a b) eqn:E; [|reflexivity]. apply bytes_eqb_spec in E. contradiction. Qed.
Lemma greet_fields_S : forall f n g r, greet_fields (S f) n g r =
  if n =? 0 then Some (Ok g, r)
  else orun (Some (read_str r)) (fun field r =>
    orun
      (if bytes_eqb field first_name then orun (Some (read_str r)) (fun s r => Some (Ok {| g_first := s; g_last := g_last g |}, r))
       else if bytes_eqb field last_name then orun (Some (read_str r)) (fun s r => Some (Ok {| g_first := g_first g; g_last := s |}, r))
       else orun (skip f r) (fun _ r => Some (Ok g, r)))
      (fun g r => greet_fields f (n - 1) g r)).
Proof. reflexivity. Qed.
Lemma fields_fparses : forall bss fs, Forall2 field_form bss fs -> forall g,
  fparses (fun f => greet_fields f (len bss) g) (concat bss) (fold_left (fun g f => f g) fs g).
Proof.
  induction 1 as [|bs f bss fs Hf Hl IH]; intros g.
  - exists 1%nat. intros [|f] Hf pre post _; [lia|]. rewrite greet_fields_S. cbn. now rewrite app_nil_r.
  - destruct (IH (f g)) as (f0 & H0). cbn [concat fold_left].
    assert (N1 : 1 + len bss - 1 = len bss) by lia. assert (N2 : 1 + len bss <> 0) by lia. apply N.eqb_neq in N2.
    destruct Hf as [h1 h2 s Hh1 Hh2|h1 h2 s Hh1 Hh2|h name v Hn1 Hn2 Hh Hv].
    + exists (S f0). intros [|f1] Hf pre post H; [lia|]. rewrite greet_fields_S, len_cons, N1, N2.
      rewrite <- !app_assoc in *. rewrite !len_app in H.
      rewrite (app_assoc h1). rewrite (str_parses h1 first_name Hh1) by (rewrite !len_app; lia). cbn [orun].
      replace (bytes_eqb first_name first_name) with true by reflexivity.
      rewrite (app_assoc h2). rewrite (str_parses h2 s Hh2) by (rewrite !len_app; lia). cbn [orun].
      rewrite H0 by (try lia; rewrite !len_app; lia). now rewrite <- !app_assoc.
    + exists (S f0). intros [|f1] Hf pre post H; [lia|]. rewrite greet_fields_S, len_cons, N1, N2.
      rewrite <- !app_assoc in *. rewrite !len_app in H.
      rewrite (app_assoc h1). rewrite (str_parses h1 last_name Hh1) by (rewrite !len_app; lia). cbn [orun].
      replace (bytes_eqb last_name first_name) with false by reflexivity.
      replace (bytes_eqb last_name last_name) with true by reflexivity.
      rewrite (app_assoc h2). rewrite (str_parses h2 s Hh2) by (rewrite !len_app; lia). cbn [orun].
      rewrite H0 by (try lia; rewrite !len_app; lia). now rewrite <- !app_assoc.
    + destruct (value_skips v Hv) as (fv & Hskip).
      exists (S (Nat.max f0 fv)). intros [|f1] Hf pre post H; [lia|]. rewrite greet_fields_S, len_cons, N1, N2.
      rewrite <- !app_assoc in *. rewrite !len_app in H.
      rewrite (app_assoc h). rewrite (str_parses h name Hh) by (rewrite !len_app; lia). cbn [orun].
      rewrite (bytes_eqb_neq _ _ Hn1), (bytes_eqb_neq _ _ Hn2).
      unfold skip. rewrite Hskip by (try lia; rewrite !len_app; lia). cbn [orun].
      rewrite H0 by (try lia; rewrite !len_app; lia). now rewrite <- !app_assoc.
Qed.
Lemma greet_decode_spec : forall h bss fs, map_form h (len bss) -> Forall2 field_form bss fs ->
  fparses greet_decode (h ++ concat bss) (fold_left (fun g f => f g) fs greeting0).
Proof.
  intros h bss fs Hh F. destruct (fields_fparses bss fs F greeting0) as (f0 & H0). exists f0.
  intros f Hf pre post H. unfold greet_decode. rewrite <- app_assoc in *. rewrite !len_app in H.
  rewrite (map_form_parses _ _ Hh) by (rewrite !len_app; lia). cbn [orun].
  rewrite H0 by (try lia; rewrite !len_app; lia). now rewrite <- app_assoc.
Qed.

(** ** Slices and maps *)
Lemma read_elems_S : forall A (elem : rd A) f n r, read_elems elem (S f) n r =
  if n =? 0 then Some (Ok [], r)
  else orun (Some (elem r)) (fun v r => orun (read_elems elem f (n - 1) r) (fun l r => Some (Ok (v :: l), r))).
Proof. reflexivity. Qed.
Lemma elems_fparses : forall A B (d : rd B) (g : A -> bytes) (h : A -> B) l, Forall (fun x => parses d (g x) (h x)) l ->
  forall f, (List.length l < f)%nat -> forall pre post, len (pre ++ concat (map g l) ++ post) < 4294967296 ->
  read_elems d f (len l) (at_ pre (concat (map g l) ++ post)) = Some (Ok (map h l), at_ (pre ++ concat (map g l)) post).
Proof.
  intros A B d g h. induction 1 as [|x l Hx Hl IH]; intros [|f] Hf pre post H; try (cbn in Hf; lia).
  - rewrite read_elems_S. cbn. now rewrite app_nil_r.
  - rewrite read_elems_S, len_cons. destruct (N.eqb_spec (1 + len l) 0); [lia|].
    replace (1 + len l - 1) with (len l) by lia. cbn [map concat List.length] in *.
    rewrite <- app_assoc in *. rewrite !len_app in H.
    rewrite Hx by (rewrite !len_app; lia). cbn [orun].
    rewrite IH by (try lia; rewrite !len_app; lia). cbn [orun]. now rewrite <- app_assoc.
Qed.
Lemma slice_writes : forall A (w : A -> wr) (g : A -> bytes) l, len l < 4294967296 -> Forall (fun x => writes (w x) (g x)) l ->
  writes (enc_slice w l) (mp_arr (len l) ++ concat (map g l)).
Proof.
  intros A w g l L H. unfold enc_slice. rewrite u32_small by exact L. apply seqw_writes; [apply mp_arr_writes|now apply seq_all_writes].
Qed.
Lemma slice_parses : forall A B (d : rd B) (g : A -> bytes) (h : A -> B) l, len l < 4294967296 -> Forall (fun x => parses d (g x) (h x)) l ->
  forall f, (List.length l < f)%nat -> forall pre post, len (pre ++ (mp_arr (len l) ++ concat (map g l)) ++ post) < 4294967296 ->
  read_slice d f (at_ pre ((mp_arr (len l) ++ concat (map g l)) ++ post)) =
  Some (Ok (map h l), at_ (pre ++ mp_arr (len l) ++ concat (map g l)) post).
Proof.
  intros A B d g h l L H f Hf pre post Hl. unfold read_slice. rewrite <- app_assoc in *. rewrite !len_app in Hl.
  rewrite (arr_form_parses (mp_arr (len l)) (len l)); [|apply mp_arr_shortest; pows; lia|rewrite !len_app; lia]. cbn [orun].
  rewrite (elems_fparses A B d g h l H f Hf) by (rewrite !len_app; lia). now rewrite <- app_assoc.
Qed.
Lemma map_writes : forall K V (wk : K -> wr) (wv : V -> wr) gk gv (l : list (K * V)), len l < 4294967296 ->
  Forall (fun kv => writes (wk (fst kv)) (gk (fst kv)) /\ writes (wv (snd kv)) (gv (snd kv))) l ->
  writes (enc_map_of wk wv l) (mp_map (len l) ++ concat (map (fun kv => gk (fst kv) ++ gv (snd kv)) l)).
Proof.
  intros K V wk wv gk gv l L H. unfold enc_map_of. rewrite u32_small by exact L. apply seqw_writes; [apply mp_map_writes|].
  apply (seq_all_writes _ (fun kv => wk (fst kv) ;;; wv (snd kv)) (fun kv => gk (fst kv) ++ gv (snd kv))).
  revert H. apply Forall_impl. intros kv [H1 H2]. now apply seqw_writes.
Qed.
Lemma map_parses : forall K V (dk : rd K) (dv : rd V) gk gv (l : list (K * V)), len l < 4294967296 ->
  Forall (fun kv => parses dk (gk (fst kv)) (fst kv) /\ parses dv (gv (snd kv)) (snd kv)) l ->
  forall f, (List.length l < f)%nat -> forall pre post,
  len (pre ++ (mp_map (len l) ++ concat (map (fun kv => gk (fst kv) ++ gv (snd kv)) l)) ++ post) < 4294967296 ->
  read_map_of dk dv f (at_ pre ((mp_map (len l) ++ concat (map (fun kv => gk (fst kv) ++ gv (snd kv)) l)) ++ post)) =
  Some (Ok l, at_ (pre ++ mp_map (len l) ++ concat (map (fun kv => gk (fst kv) ++ gv (snd kv)) l)) post).
Proof.
  intros K V dk dv gk gv l L H f Hf pre post Hl. unfold read_map_of. rewrite <- app_assoc in *. rewrite !len_app in Hl.
  rewrite (map_form_parses (mp_map (len l)) (len l)); [|apply mp_map_shortest; pows; lia|rewrite !len_app; lia]. cbn [orun].
  assert (P : Forall (fun kv => parses (read_pair dk dv) (gk (fst kv) ++ gv (snd kv)) kv) l).
  { revert H. apply Forall_impl. intros kv [H1 H2]. unfold read_pair.
    apply bind_parses with (fst kv); [exact H1|]. apply bind_parses_nil with (snd kv); [exact H2|].
    rewrite <- surjective_pairing. apply ret_parses. }
  rewrite (elems_fparses _ _ (read_pair dk dv) (fun kv => gk (fst kv) ++ gv (snd kv)) (fun kv => kv) l P f Hf).
  - rewrite map_id, <- app_assoc. reflexivity.
  - rewrite !len_app. unfold bytes in *. lia.
Qed.
