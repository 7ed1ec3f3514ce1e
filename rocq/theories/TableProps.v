(** C89: generated records of any shape. *)
From Verif Require Import Base BaseFacts MsgpackModel MsgpackSpec MsgpackProofs MsgpackValues MsgpackAny MsgpackSkip RecordModel RecordProofs MsgpackProps TransformProps TableModel.
Local Ltac Zify.zify_post_hook ::= Z.div_mod_to_equations.
Local Notation lim := 4294967296 (only parsing).

(** Specification: a field on the wire and what it does to the record. *)
Inductive wire_field {R} (table : list (rfield R)) : bytes -> (R -> R) -> Prop :=
| wf_known h v f u : In f table -> str_form h (len (f_name f)) -> parses (f_read f) v u -> wire_field table ((h ++ f_name f) ++ v) u
| wf_unknown h name v : (forall f, In f table -> name <> f_name f) -> str_form h (len name) -> mp_value false v -> wire_field table ((h ++ name) ++ v) (fun g => g).
Definition distinct {R} (table : list (rfield R)) : Prop := NoDup (map f_name table).

Lemma find_known R (table : list (rfield R)) f : distinct table -> In f table -> the_field table (f_name f) = Some f.
Proof.
  unfold distinct, the_field. induction table as [|x l IH]; intros ND H; [destruct H|]. cbn [map] in ND. inversion ND as [|? ? Hx Hl]; subst. cbn [find].
  destruct H as [-> |H]; [now rewrite (proj2 (bytes_eqb_spec _ _) eq_refl)|].
  rewrite bytes_eqb_neq; [now apply IH|]. intros E. apply Hx. rewrite <- E. now apply in_map.
Qed.
Lemma find_unknown R (table : list (rfield R)) name : (forall f, In f table -> name <> f_name f) -> the_field table name = None.
Proof.
  unfold the_field. intros H. induction table as [|x l IH]; [reflexivity|]. cbn [find]. rewrite bytes_eqb_neq; [|apply H; now left]. apply IH. intros f Hf. apply H. now right.
Qed.
Lemma tab_fields_S R (table : list (rfield R)) f n g r : tab_fields table (S f) n g r =
  if n =? 0 then Some (Ok g, r)
  else orun (Some (read_str r)) (fun field r =>
    orun (match the_field table field with
          | Some x => orun (Some (f_read x r)) (fun u r => Some (Ok (u g), r))
          | None => orun (skip f r) (fun _ r => Some (Ok g, r)) end)
      (fun g r => tab_fields table f (n - 1) g r)).
Proof. reflexivity. Qed.
Lemma tab_fields_fparses R (table : list (rfield R)) : distinct table -> forall bss us, Forall2 (wire_field table) bss us -> forall g,
  fparses (fun f => tab_fields table f (len bss) g) (concat bss) (fold_left (fun g u => u g) us g).
Proof.
  intros ND. induction 1 as [|bs u bss us Hf Hl IH]; intros g.
  - exists 1%nat. intros [|f] Hf pre post _; [lia|]. rewrite tab_fields_S. cbn. now rewrite app_nil_r.
  - destruct (IH (u g)) as (f0 & H0). cbn [concat fold_left].
    assert (N1 : 1 + len bss - 1 = len bss) by lia. assert (N2 : 1 + len bss <> 0) by lia. apply N.eqb_neq in N2.
    destruct Hf as [h v x u Hx Hh Hv|h name v Hn Hh Hv].
    + exists (S f0). intros [|f1] Hf pre post H; [lia|]. rewrite tab_fields_S, len_cons, N1, N2.
      rewrite <- !app_assoc in *. rewrite !len_app in H.
      rewrite (app_assoc h). rewrite (str_parses h (f_name x) Hh) by (rewrite !len_app; lia). cbn [orun].
      rewrite (find_known _ _ _ ND Hx). rewrite (Hv _ _) by (rewrite !len_app; lia). cbn [orun].
      rewrite H0 by (try lia; rewrite !len_app; lia). now rewrite <- !app_assoc.
    + destruct (value_skips v Hv) as (fv & Hskip).
      exists (S (Nat.max f0 fv)). intros [|f1] Hf pre post H; [lia|]. rewrite tab_fields_S, len_cons, N1, N2.
      rewrite <- !app_assoc in *. rewrite !len_app in H.
      rewrite (app_assoc h). rewrite (str_parses h name Hh) by (rewrite !len_app; lia). cbn [orun].
      rewrite (find_unknown _ _ _ Hn).
      unfold skip. rewrite Hskip by (try lia; rewrite !len_app; lia). cbn [orun].
      rewrite H0 by (try lia; rewrite !len_app; lia). now rewrite <- !app_assoc.
Qed.
(** Whatever the fields of the record: fields in any order, repeated, missing,
    and unknown fields of any type are decoded. *)
Theorem C89_decode_any_fields :
  forall R (table : list (rfield R)) zero h bss us, distinct table -> map_form h (len bss) -> Forall2 (wire_field table) bss us ->
    fparses (tab_decode table zero) (h ++ concat bss) (fold_left (fun g u => u g) us zero).
Proof.
  intros R table zero h bss us ND Hh F. destruct (tab_fields_fparses R table ND bss us F zero) as (f0 & H0). exists f0.
  intros f Hf pre post H. unfold tab_decode. rewrite <- app_assoc in *. rewrite !len_app in H.
  rewrite (map_form_parses _ _ Hh) by (rewrite !len_app; lia). cbn [orun].
  rewrite H0 by (try lia; rewrite !len_app; lia). now rewrite <- app_assoc.
Qed.

(** Two versions of a record, [mine] written and [yours] read: a field known to
    both is read as an assignment [u], any other field of mine is skipped. *)
Inductive carried {R S} (g : R) (yours : list (rfield S)) (f : rfield R) : (S -> S) -> Prop :=
| ca_known f' u : In f' yours -> f_name f' = f_name f -> parses (f_read f') (mp_prim (f_put f g)) u -> carried g yours f u
| ca_unknown : (forall f', In f' yours -> f_name f <> f_name f') -> mp_value false (mp_prim (f_put f g)) -> carried g yours f (fun x => x).
(** What can be written: legal values, whose size the sizer gets right. *)
Definition writable {R} (table : list (rfield R)) (g : R) : Prop :=
  Forall (fun f => len (f_name f) < lim /\ wf_prim (f_put f g) /\ surplus_prim (f_put f g) = 0) table /\
  len (mp_calls (tab_encode table (Some g))) < lim.

Lemma mp_calls_table R (table l : list (rfield R)) g :
  mp_calls (flat_map (fun f => [inl (PStr (f_name f)); inl (f_put f g)]) l) =
  concat (map (fun f => (mp_str_len (len (f_name f)) ++ f_name f) ++ mp_prim (f_put f g)) l).
Proof.
  unfold mp_calls. induction l as [|f l IH]; [reflexivity|]. cbn [flat_map map concat app]. rewrite IH. cbn [mp_call mp_prim]. unfold mp_str. now rewrite <- !app_assoc.
Qed.
Definition on_wire {R} (table : list (rfield R)) (g : R) : bytes :=
  mp_map (len table) ++ concat (map (fun f => (mp_str_len (len (f_name f)) ++ f_name f) ++ mp_prim (f_put f g)) table).
Lemma calls_on_wire R (table : list (rfield R)) g : mp_calls (tab_encode table (Some g)) = on_wire table g.
Proof. unfold on_wire. rewrite <- (mp_calls_table R table table). reflexivity. Qed.
Lemma table_small R (table : list (rfield R)) g : len (on_wire table g) < lim -> len table < lim.
Proof.
  unfold on_wire. rewrite len_app. intros H.
  assert (K : len table <= len (concat (map (fun f => (mp_str_len (len (f_name f)) ++ f_name f) ++ mp_prim (f_put f g)) table))); [|lia].
  clear H. induction table as [|f l IH]; [reflexivity|]. cbn [map concat]. rewrite !len_app, len_cons. rewrite mp_str_len_siz. unfold siz_str_len.
  repeat match goal with |- context [if ?c then _ else _] => destruct c end; lia.
Qed.
Lemma encode_table R (table : list (rfield R)) g : writable table g ->
  to_bytes (tab_encode table (Some g)) (tab_encode table (Some g)) = Ok (on_wire table g).
Proof.
  intros [F L]. rewrite calls_on_wire in L. pose proof (table_small _ _ _ L) as TS.
  assert (W : Forall wf_call (tab_encode table (Some g)) /\ surplus_calls (tab_encode table (Some g)) = 0).
  { cbn [tab_encode]. unfold surplus_calls. split.
    - constructor; [cbn; pows; lia|]. clear -F. induction F as [|f l (H1 & H2 & H3) Hl IH]; cbn [flat_map app]; [constructor|]. repeat constructor; try assumption.
    - cbn [map surplus_call surplus_prim]. clear -F. induction F as [|f l (H1 & H2 & H3) Hl IH]; [reflexivity|]. cbn [flat_map app map surplus_call]. rewrite H3. exact IH. }
  destruct W as [W Z]. destruct (to_bytes_spec _ _ W W) as [E _].
  - cbn [tab_encode]. constructor; [constructor|]. clear. induction table as [|f l IH]; cbn [flat_map app]; repeat constructor; assumption.
  - rewrite calls_on_wire, Z. lia.
  - rewrite E, Z, calls_on_wire. cbn [N.to_nat repeat]. now rewrite app_nil_r.
Qed.
(** A record written with one table and read with another: the common fields are
    carried, the others are skipped or stay as they were. *)
Theorem C89_versions :
  forall R S (mine : list (rfield R)) (yours : list (rfield S)) zero g us, distinct yours -> writable mine g -> Forall2 (carried g yours) mine us ->
    exists bs, to_bytes (tab_encode mine (Some g)) (tab_encode mine (Some g)) = Ok bs /\
      fparses (tab_decode yours zero) bs (fold_left (fun x u => u x) us zero).
Proof.
  intros R S mine yours zero g us ND W F. exists (on_wire mine g). split; [now apply encode_table|].
  destruct W as [W L]. rewrite calls_on_wire in L. apply table_small in L. unfold on_wire.
  apply C89_decode_any_fields; [exact ND| |].
  - unfold len. rewrite map_length. apply mp_map_shortest. pows. exact L.
  - clear L. induction F as [|f u l us Hf Hl IH]; cbn [map]; [constructor|]. inversion W as [|? ? (H1 & H2 & H3) Wl]; subst. constructor; [|now apply IH].
    destruct Hf as [f' u Hi Hn Hp|Hn Hv].
    + rewrite <- Hn. apply wf_known; [exact Hi| |exact Hp]. rewrite Hn. apply mp_str_len_shortest. pows. exact H1.
    + apply wf_unknown; [exact Hn| |exact Hv]. apply mp_str_len_shortest. pows. exact H1.
Qed.
(** A nil record is written as nil and read, with any table, as the untouched record. *)
Theorem C89_nil_record :
  forall R S (mine : list (rfield R)) (yours : list (rfield S)) zero,
    exists bs, to_bytes (tab_encode mine None) (tab_encode mine None) = Ok bs /\ fparses (tab_decode yours zero) bs zero.
Proof.
  intros. exists [192]. split; [reflexivity|]. exists 1%nat. intros [|f] Hf pre post H; [lia|]. unfold tab_decode, read_map, rbind.
  rewrite (get_u1_parses 192 pre post H). reflexivity.
Qed.

(** The records of the repository. *)
Lemma field_parses R A name (d : rd A) (set : A -> R -> R) put bs a : parses d bs a -> parses (f_read (a_field name d set put)) bs (set a).
Proof. intros H. apply bind_parses_nil with a; [exact H|apply ret_parses]. Qed.
Lemma lens : (len (mp_map (len counter_table)) = 1 /\ len (mp_map (len strings_table)) = 1 /\ len (mp_map (len count_table)) = 1 /\ len (mp_map (len greeting_table)) = 1 /\ len (mp_str_len 2) = 1) /\ len (mp_str_len 4) = 1 /\ len (mp_str_len 5) = 1 /\ len (mp_str_len 8) = 1 /\ len (mp_str_len 9) = 1.
Proof. repeat split. Qed.
Local Ltac norm_len := try replace (len name_to) with 2 by reflexivity; try replace (len name_left) with 4 by reflexivity; try replace (len name_right) with 5 by reflexivity;
  try replace (len name_word) with 4 by reflexivity; try replace (len name_count) with 5 by reflexivity; try replace (len first_name) with 9 by reflexivity;
  try replace (len last_name) with 8 by reflexivity; pose proof lens.
Lemma two_distinct (A : Type) (a b : A) : a <> b -> NoDup [a; b].
Proof. intros H. constructor; [intros [E|[]]; now apply H|]. constructor; [intros []|constructor]. Qed.
Lemma str_cost s : len (mp_prim (PStr s)) <= 5 + len s.
Proof.
  cbn [mp_prim]. unfold mp_str. rewrite len_app, mp_str_len_siz. unfold siz_str_len.
  repeat match goal with |- context [if ?c then _ else _] => destruct c end; lia.
Qed.
Lemma uint_cost n : len (mp_prim (PUint n)) <= 9.
Proof.
  cbn [mp_prim]. unfold mp_uint. repeat match goal with |- context [if ?c then _ else _] => destruct c end; rewrite ?len_cons, ?len_be; cbn; lia.
Qed.
Definition travels {R} (table : list (rfield R)) (zero g : R) : Prop :=
  exists bs, to_bytes (tab_encode table (Some g)) (tab_encode table (Some g)) = Ok bs /\ fparses (tab_decode table zero) bs g.
Lemma travels_by : forall R (table : list (rfield R)) zero g us, distinct table -> writable table g -> Forall2 (carried g table) table us -> fold_left (fun x u => u x) us zero = g -> travels table zero g.
Proof. intros R table zero g us ND W F E. destruct (C89_versions R R table table zero g us ND W F) as (bs & H1 & H2). rewrite E in H2. now exists bs. Qed.
Lemma counter_travels : forall n zero, fits_u 8 n -> travels counter_table zero n.
Proof.
  intros n zero Hn. apply (travels_by _ _ _ _ [fun _ => n]); [repeat constructor; cbn; tauto| | |reflexivity].
    + split; [repeat constructor; exact Hn|]. rewrite calls_on_wire. unfold on_wire. cbn [counter_table map concat a_field f_name f_put]. rewrite app_nil_r, !len_app.
      pose proof (uint_cost n). norm_len. unfold bytes in *. lia.
    + constructor; [|constructor]. eapply ca_known; [left; reflexivity|reflexivity|]. apply (field_parses N N name_to read_uint64 (fun v _ => v)). now apply mp_uint_parses.
Qed.
Lemma strings_travels : forall l r zero, len l + len r + 64 < lim -> travels strings_table zero (l, r).
Proof.
  intros l r zero Hn.
    apply (travels_by _ _ _ _ [fun g => (l, snd g); fun g => (fst g, r)]); [apply two_distinct; discriminate| | |reflexivity].
    + split; [repeat constructor; cbn [strings_table a_field f_put f_name wf_prim fst snd]; lia|]. rewrite calls_on_wire. unfold on_wire. cbn [strings_table map concat a_field f_name f_put fst snd]. rewrite app_nil_r, !len_app.
      pose proof (str_cost l). pose proof (str_cost r). norm_len. unfold bytes in *. lia.
    + constructor; [|constructor; [|constructor]].
      * eapply ca_known; [left; reflexivity|reflexivity|]. apply (field_parses _ _ name_left read_str (fun s g => (s, snd g))). apply mp_str_parses. cbn [fst]. lia.
      * eapply ca_known; [right; left; reflexivity|reflexivity|]. apply (field_parses _ _ name_right read_str (fun s g => (fst g, s))). apply mp_str_parses. cbn [snd]. lia.
Qed.
Lemma count_travels : forall w n zero, len w + 64 < lim -> fits_u 8 n -> travels count_table zero (w, n).
Proof.
  intros w n zero Hw Hn.
    apply (travels_by _ _ _ _ [fun g => (w, snd g); fun g => (fst g, n)]); [apply two_distinct; discriminate| | |reflexivity].
    + split; [constructor; [|constructor; [|constructor]]; cbn [count_table a_field f_put f_name wf_prim fst snd]; (split; [cbn; lia|split; [|reflexivity]]); [lia|exact Hn]|].
      rewrite calls_on_wire. unfold on_wire. cbn [count_table map concat a_field f_name f_put fst snd]. rewrite app_nil_r, !len_app.
      pose proof (str_cost w). pose proof (uint_cost n). norm_len. unfold bytes in *. lia.
    + constructor; [|constructor; [|constructor]].
      * eapply ca_known; [left; reflexivity|reflexivity|]. apply (field_parses _ _ name_word read_str (fun s g => (s, snd g))). apply mp_str_parses. cbn [fst]. lia.
      * eapply ca_known; [right; left; reflexivity|reflexivity|]. apply (field_parses _ _ name_count read_uint64 (fun n g => (fst g, n))). now apply mp_uint_parses.
Qed.
Lemma greeting_travels : forall g zero, len (g_first g) + len (g_last g) + 64 < lim -> travels greeting_table zero g.
Proof.
  intros [a b] zero Hn. cbn [g_first g_last] in Hn.
    apply (travels_by _ _ _ _ [fun g => {| g_first := a; g_last := g_last g |}; fun g => {| g_first := g_first g; g_last := b |}]); [apply two_distinct; discriminate| | |reflexivity].
    + split; [repeat constructor; cbn [greeting_table a_field f_put f_name wf_prim g_first g_last]; try lia; cbn; lia|]. rewrite calls_on_wire. unfold on_wire. cbn [greeting_table map concat a_field f_name f_put g_first g_last]. rewrite app_nil_r, !len_app.
      pose proof (str_cost a). pose proof (str_cost b). norm_len. unfold bytes in *. lia.
    + constructor; [|constructor; [|constructor]].
      * eapply ca_known; [left; reflexivity|reflexivity|]. apply (field_parses _ _ first_name read_str (fun s g => {| g_first := s; g_last := g_last g |})). apply mp_str_parses. cbn [g_first]. lia.
      * eapply ca_known; [right; left; reflexivity|reflexivity|]. apply (field_parses _ _ last_name read_str (fun s g => {| g_first := g_first g; g_last := s |})). apply mp_str_parses. cbn [g_last]. lia.
Qed.
Theorem C89_round_trip :
  (forall n zero, fits_u 8 n -> travels counter_table zero n) /\
  (forall l r zero, len l + len r + 64 < lim -> travels strings_table zero (l, r)) /\
  (forall w n zero, len w + 64 < lim -> fits_u 8 n -> travels count_table zero (w, n)) /\
  (forall g zero, len (g_first g) + len (g_last g) + 64 < lim -> travels greeting_table zero g).
Proof. exact (conj counter_travels (conj strings_travels (conj count_travels greeting_travels))). Qed.
(** The model of C47 is the instance for GreetingRequest. *)
Theorem C89_covers_C47 :
  (forall fuel r, greet_decode fuel r = tab_decode greeting_table greeting0 fuel r) /\ (forall g, greet_encode g = tab_encode greeting_table g).
Proof.
  split; [|intros [g|]; reflexivity]. intros fuel r. unfold greet_decode, tab_decode.
  assert (K : forall fuel n g r, greet_fields fuel n g r = tab_fields greeting_table fuel n g r).
  { clear. induction fuel as [|f IH]; intros n g r; [reflexivity|]. rewrite greet_fields_S, tab_fields_S. destruct (n =? 0); [reflexivity|].
    destruct (read_str r) as [[field|e|] r1]; cbn [orun]; [|reflexivity|reflexivity].
    unfold the_field. cbn [greeting_table find a_field f_name].
    destruct (bytes_eqb field first_name); [|destruct (bytes_eqb field last_name)].
    - unfold a_field, rbind, rret. cbn [f_read]. destruct (read_str r1) as [[s|e|] r2]; cbn [orun]; [apply IH|reflexivity|reflexivity].
    - unfold a_field, rbind, rret. cbn [f_read]. destruct (read_str r1) as [[s|e|] r2]; cbn [orun]; [apply IH|reflexivity|reflexivity].
    - destruct (skip f r1) as [[[s|e|] r2]|]; cbn [orun]; [apply IH|reflexivity|reflexivity|reflexivity]. }
  destruct (read_map r) as [[n|e|] r1]; cbn [orun]; [apply K|reflexivity|reflexivity].
Qed.
(** WordCount read by a program that knows only its word, and that program's
    record read as a WordCount. *)
Definition word_only : list (rfield bytes) := [a_field name_word read_str (fun s _ => s) PStr].
Lemma word_only_reads : forall w n, len w + 64 < lim -> fits_u 8 n ->
  exists bs, to_bytes (tab_encode count_table (Some (w, n))) (tab_encode count_table (Some (w, n))) = Ok bs /\ fparses (tab_decode word_only []) bs w.
Proof.
  intros w n Hw Hn. apply (C89_versions _ _ count_table word_only [] (w, n) [fun _ => w; fun x => x]).
  - repeat constructor. cbn. tauto.
  - split; [constructor; [|constructor; [|constructor]]; cbn [count_table a_field f_put f_name wf_prim fst snd]; (split; [cbn; lia|split; [|reflexivity]]); [lia|exact Hn]|].
    rewrite calls_on_wire. unfold on_wire. cbn [count_table map concat a_field f_name f_put fst snd]. rewrite app_nil_r, !len_app.
    pose proof (str_cost w). pose proof (uint_cost n). norm_len. unfold bytes in *. lia.
  - constructor; [|constructor; [|constructor]].
    + eapply ca_known; [left; reflexivity|reflexivity|]. apply (field_parses _ _ name_word read_str (fun s _ => s)). apply mp_str_parses. cbn [fst]. lia.
    + apply ca_unknown; [intros f' [<-|[]]; discriminate|]. cbn [f_put a_field snd mp_prim]. eapply uint_value. apply mp_uint_shortest. exact Hn.
Qed.
Example C89_example :
  to_bytes (tab_encode count_table (Some ([97; 98], 300))) (tab_encode count_table (Some ([97; 98], 300))) =
    Ok [130; 164; 119; 111; 114; 100; 162; 97; 98; 165; 99; 111; 117; 110; 116; 205; 1; 44] /\
  (exists r, tab_decode count_table ([], 0) 9 (new_reader [130; 164; 119; 111; 114; 100; 162; 97; 98; 165; 99; 111; 117; 110; 116; 205; 1; 44]) = Some (Ok ([97; 98], 300), r)) /\
  (exists r, tab_decode word_only [] 9 (new_reader [130; 164; 119; 111; 114; 100; 162; 97; 98; 165; 99; 111; 117; 110; 116; 205; 1; 44]) = Some (Ok [97; 98], r)) /\
  (exists r, tab_decode count_table ([], 7) 9 (new_reader [129; 164; 119; 111; 114; 100; 162; 97; 98]) = Some (Ok ([97; 98], 7), r)) /\
  wire_field count_table [161; 120; 147; 1; 192; 161; 65] (fun g => g) /\
  (exists bs, to_bytes (tab_encode count_table (Some ([97], 3))) (tab_encode count_table (Some ([97], 3))) = Ok bs /\ fparses (tab_decode word_only []) bs [97]).
Proof.
  split; [vm_compute; reflexivity|]. split; [eexists; vm_compute; reflexivity|]. split; [eexists; vm_compute; reflexivity|]. split; [eexists; vm_compute; reflexivity|].
  split; [|apply word_only_reads; [cbn; lia|vm_compute; reflexivity]].
  apply (wf_unknown count_table [161] [120] [147; 1; 192; 161; 65]).
  - intros f [<-|[<-|[]]]; discriminate.
  - apply (sf_fix 1). reflexivity.
  - apply (v_arr false [147] 3); [apply (af_fix 3); reflexivity|].
    apply (vs_cons false 2 [1]); [apply v_byte; lia|]. apply (vs_cons false 1 [192]); [apply v_byte; lia|].
    apply (vs_cons false 0 [161; 65] []); [apply (v_str false [161] [65]); apply (sf_fix 1); reflexivity|constructor].
Qed.
Print Assumptions C89_decode_any_fields.
Print Assumptions C89_versions.
Print Assumptions C89_nil_record.
Print Assumptions C89_round_trip.
Print Assumptions C89_covers_C47.
