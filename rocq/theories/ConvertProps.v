(** C92: optional values. *)
From Verif Require Import Base BaseFacts MsgpackModel MsgpackSpec MsgpackProofs MsgpackValues MsgpackAny MsgpackSkip RecordModel RecordProofs MsgpackProps TransformProps TableModel TableProps ConvertModel.
Local Ltac Zify.zify_post_hook ::= Z.div_mod_to_equations.
Local Notation lim := 4294967296 (only parsing).

Lemma map_head n : exists b bs, mp_map n = b :: bs /\ b <> 192.
Proof. unfold mp_map. repeat match goal with |- context [if ?c then _ else _] => destruct c eqn:? end; eexists _, _; (split; [reflexivity|lia]). Qed.
Lemma prim_head p : wf_prim p -> p <> PNil -> exists b bs, mp_prim p = b :: bs /\ b <> 192.
Proof.
  intros W NP. destruct p; cbn [mp_prim wf_prim] in *.
  - congruence.
  - destruct b; eexists _, _; (split; [reflexivity|lia]).
  - unfold mp_int. repeat match goal with |- context [if ?c then _ else _] => destruct c eqn:? end; eexists _, _; (split; [reflexivity|]); lia.
  - unfold mp_uint. repeat match goal with |- context [if ?c then _ else _] => destruct c eqn:? end; eexists _, _; (split; [reflexivity|]); lia.
  - eexists _, _; (split; [reflexivity|lia]).
  - eexists _, _; (split; [reflexivity|lia]).
  - unfold mp_str, mp_str_len. repeat match goal with |- context [if ?c then _ else _] => destruct c eqn:? end; eexists _, _; (split; [reflexivity|]); lia.
  - unfold mp_bin, mp_bin_len. repeat match goal with |- context [if ?c then _ else _] => destruct c eqn:? end; eexists _, _; (split; [reflexivity|]); lia.
  - unfold mp_time. repeat match goal with |- context [if ?c then _ else _] => destruct c eqn:? end; eexists _, _; (split; [reflexivity|]); lia.
  - unfold mp_arr. repeat match goal with |- context [if ?c then _ else _] => destruct c eqn:? end; eexists _, _; (split; [reflexivity|]); lia.
  - apply map_head.
Qed.
(** Any optional value written with WriteNillable... and read with the matching
    ReadNillable...: nil stays nil, and no value is taken for nil. *)
Theorem C92_optional_value :
  forall A (w : A -> prim) (d : rd A) o,
    (forall v, o = Some v -> w v <> PNil /\ wf_prim (w v) /\ parses d (mp_prim (w v)) v) ->
    exists bs, writes (nillable enc_nil (fun v => enc_prim (w v)) o) bs /\ parses (read_nillable d) bs o.
Proof.
  intros A w d [v|] H; cbn [nillable].
  - destruct (H v eq_refl) as (H1 & H2 & H3). exists (mp_prim (w v)). split; [now apply mp_prim_writes|].
    destruct (prim_head _ H2 H1) as (b & bs & E & Hb). rewrite E in *. now apply nillable_some_parses.
  - exists [192]. split; [apply nil_writes|apply nillable_none_parses].
Qed.
(** An optional record, read with any version of it. *)
Theorem C92_optional_record :
  forall R S (mine : list (rfield R)) (yours : list (rfield S)) zero o us, distinct yours ->
    (forall g, o = Some g -> writable mine g /\ Forall2 (carried g yours) mine us) ->
    exists bs, to_bytes (tab_encode mine o) (tab_encode mine o) = Ok bs /\
      fparses (decode_nillable (tab_decode yours zero)) bs (option_map (fun _ => fold_left (fun x u => u x) us zero) o).
Proof.
  intros R S mine yours zero [g|] us ND H.
  - destruct (H g eq_refl) as [W F]. destruct (C89_versions R S mine yours zero g us ND W F) as (bs & E1 & f0 & E2).
    exists bs. split; [exact E1|]. exists f0. intros f Hf pre post L. unfold decode_nillable.
    assert (B : exists b bs', bs = b :: bs' /\ b <> 192).
    { rewrite (encode_table _ _ _ W) in E1. injection E1 as <-. unfold on_wire. destruct (map_head (len mine)) as (b & bs' & -> & Hb). eexists _, _. split; [reflexivity|exact Hb]. }
    destruct B as (b & bs' & -> & Hb). rewrite is_next_nil_no by assumption. cbn [orun]. rewrite E2 by assumption. reflexivity.
  - exists [192]. split; [reflexivity|]. exists 0%nat. intros f _ pre post L. unfold decode_nillable. rewrite (is_next_nil_yes pre post L). reflexivity.
Qed.
(** The helpers that may be given nil: [Format], [NillableParse] and
    [StringToTimePtr] hand on nil and errors and apply the function otherwise;
    the last one sets its pointer when the function fails. *)
Theorem C92_conversions_that_hold :
  forall I T (zero : T) (fn : I -> T + string) (fmt : I -> bytes) (x : res (option I)) y, as_two None x = Some y ->
    conv_format fmt (fst y) = match x with Ok (Some v) => Some (fmt v) | _ => None end /\
    conv_nillable_parse fn y = match x with
      | Ok (Some v) => match fn v with inl t => (Some t, None) | inr e => (None, Some e) end
      | Ok None => (None, None) | Err e => (None, Some e) | Panic => (None, None) end /\
    snd (conv_time_ptr zero fn y) = snd (conv_nillable_parse fn y) /\
    (fst (conv_time_ptr zero fn y) = None <-> exists e, x = Ok None \/ x = Err e).
Proof.
  intros I T zero fn fmt x y E. destruct x as [[v|]|e|]; cbn [as_two] in E; try discriminate; injection E as <-;
    unfold conv_format, conv_nillable_parse, conv_time_ptr; cbn [fst snd].
  - repeat split; try (destruct (fn v); reflexivity).
    + destruct (fn v); discriminate.
    + intros (e & [C|C]); discriminate.
  - repeat split; try reflexivity. intros _. exists ""%string. now left.
  - repeat split; try reflexivity. intros _. exists e. now right.
Qed.
(** The helpers for values that are not optional report the failure of the read
    and of the function, and give the converted value otherwise. *)
Theorem C92_conversions_of_values :
  forall I T (zero : I) (none : T) (cast : I -> T) (fn : I -> T + string) (d : rd I) r y, as_two zero (fst (d r)) = Some y ->
    (forall e, snd (conv_plain cast y) = Some e <-> fst (d r) = Err e) /\
    (forall v, fst (d r) = Ok v -> conv_plain cast y = (cast v, None)) /\
    (forall e, snd (conv_parse none fn y) = Some e <-> fst (d r) = Err e \/ exists v, fst (d r) = Ok v /\ fn v = inr e) /\
    (forall t, conv_parse none fn y = (t, None) <-> exists v, fst (d r) = Ok v /\ fn v = inl t).
Proof.
  intros I T zero none cast fn d r y E. destruct (fst (d r)) as [v|e|]; cbn [as_two] in E; try discriminate; injection E as <-; unfold conv_plain, conv_parse; cbn [fst snd].
  - split; [split; discriminate|]. split; [intros w [= <-]; reflexivity|]. destruct (fn v) as [t|e] eqn:Ef; cbn [snd].
    + split; [intros e; split; [discriminate|intros [X|(w & [= <-] & X)]; [discriminate|congruence]]|].
      intros u. split; [intros [= <-]; eauto|intros (w & [= <-] & X); congruence].
    + split; [intros e'; split; [intros [= <-]; right; eauto|intros [X|(w & [= <-] & X)]; [discriminate|congruence]]|].
      intros u. split; [discriminate|intros (w & [= <-] & X); congruence].
  - split; [intros e'; split; [intros [= <-]; reflexivity|intros [= <-]; reflexivity]|]. split; [discriminate|]. split.
    + intros e'. split; [intros [= <-]; now left|intros [[= <-]|(w & X & _)]; [reflexivity|discriminate]].
    + intros u. split; [discriminate|intros (w & X & _); discriminate].
Qed.
(** Wanted of [NillableString], [NillableBool], [NillableNumeric]: the same.  They
    panic on every optional value that is nil and on every read that fails. *)
Theorem C92_nil_conversion_panics_refuted :
  forall I T (cast : I -> T) (d : rd I) r y, as_two None (fst (read_nillable d r)) = Some y ->
    (conv_nillable cast y = None <-> forall v, fst (read_nillable d r) <> Ok (Some v)) /\
    (forall v, fst (read_nillable d r) = Ok (Some v) -> conv_nillable cast y = Some (Some (cast v), None)).
Proof.
  intros I T cast d r y E. destruct (fst (read_nillable d r)) as [[v|]|e|]; cbn [as_two] in E; try discriminate; injection E as <-; unfold conv_nillable; cbn [fst snd].
  - split; [|intros w [= <-]; reflexivity]. split; [discriminate|]. intros H. now destruct (H v).
  - split; [|discriminate]. split; [discriminate|reflexivity].
  - split; [|discriminate]. split; [discriminate|reflexivity].
Qed.
(** In particular: nil as the encoder writes it, and any input that is used up. *)
Theorem C92_nil_input_panics_refuted :
  forall I T (cast : I -> T) (d : rd I) post, len ([192] ++ post) < lim ->
    as_two None (fst (read_nillable d (new_reader ([192] ++ post)))) = Some (None, None) /\ conv_nillable cast (@None I, @None string) = None /\
    exists e, as_two None (fst (read_nillable d (new_reader []))) = Some (None, Some e) /\ conv_nillable cast (@None I, Some e) = None.
Proof.
  intros I T cast d post L. split; [|split; [reflexivity|]].
  - change (new_reader ([192] ++ post)) with (at_ [] ([192] ++ post)). rewrite (nillable_none_parses I d [] post L). reflexivity.
  - eexists. split; [|reflexivity]. unfold read_nillable, is_next_nil, rbind. vm_compute. reflexivity.
Qed.
Example C92_example :
  (exists bs, writes (nillable enc_nil (fun v => enc_prim (PStr v)) (Some [104; 105])) bs /\ parses (read_nillable read_str) bs (Some [104; 105])) /\
  (exists r, decode_nillable (tab_decode count_table ([], 7)) 9 (new_reader [192; 1]) = Some (Ok None, r)) /\
  (exists r, decode_nillable (tab_decode count_table ([], 7)) 9 (new_reader [129; 164; 119; 111; 114; 100; 162; 97; 98]) = Some (Ok (Some ([97; 98], 7)), r)) /\
  as_two None (fst (read_nillable read_str (new_reader [192]))) = Some (None, None) /\
  fst (read_nillable read_str (new_reader [161; 65])) = Ok (Some [65]) /\
  as_two [] (fst (read_str (new_reader [161; 65]))) = Some ([65], None) /\ (exists e, as_two [] (fst (read_str (new_reader [162; 65]))) = Some ([], Some e)).
Proof.
  split; [apply (C92_optional_value _ PStr read_str); intros v [= <-]; split; [discriminate|]; split; [reflexivity|now apply mp_str_parses]|].
  split; [eexists; vm_compute; reflexivity|]. split; [eexists; vm_compute; reflexivity|]. split; [vm_compute; reflexivity|]. split; [vm_compute; reflexivity|].
  split; [vm_compute; reflexivity|]. eexists. vm_compute. reflexivity.
Qed.
Print Assumptions C92_optional_value.
Print Assumptions C92_optional_record.
Print Assumptions C92_conversions_that_hold.
Print Assumptions C92_conversions_of_values.
Print Assumptions C92_nil_conversion_panics_refuted.
Print Assumptions C92_nil_input_panics_refuted.
