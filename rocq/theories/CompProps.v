(** C91: components with one input and one output value. *)
From Verif Require Import Base BaseFacts MsgpackModel MsgpackSpec MsgpackProofs MsgpackValues MsgpackAny RecordModel RecordProofs InvokeModel InvokeProps TransformModel TransformProps TableModel TableProps WordModel WordProps CompModel.
Local Ltac Zify.zify_post_hook ::= Z.div_mod_to_equations.
Local Notation lim := 4294967296 (only parsing).

(** Specification: what decides the answer. *)
Inductive verdict (A : Type) := Computes (a : A) | Refuses (e : string) | Silent.
Arguments Computes {A}. Arguments Refuses {A}. Arguments Silent {A}.
Inductive settles {A} (port_in : bytes) (dec : bytes -> res A) : list cin -> verdict A -> Prop :=
| st_none : settles port_in dec [] Silent
| st_end i l o : (forall d m, i <> GetNext d m) -> settles port_in dec l o -> settles port_in dec (i :: l) o
| st_other data meta p l o : decode_port meta = Ok p -> po_port p <> port_in \/ po_next p = false -> settles port_in dec l o -> settles port_in dec (GetNext data meta :: l) o
| st_value data meta p a l : decode_port meta = Ok p -> po_port p = port_in -> po_next p = true -> dec data = Ok a -> settles port_in dec (GetNext data meta :: l) (Computes a)
| st_bad data meta p e l : decode_port meta = Ok p -> po_port p = port_in -> po_next p = true -> dec data = Err e -> settles port_in dec (GetNext data meta :: l) (Refuses e).
(** One message on the output port with the text [s], flagged as the last, then the end. *)
Definition says (port_out s : bytes) (out : list sinkcall) : Prop :=
  exists d m p, out = [KeepNext d m; KeepComplete] /\ t_decode tr_string d = Ok s /\ decode_port m = Ok p /\ po_port p = port_out /\ po_data p = [] /\ po_next p = true /\ po_complete p = true.
Definition shot_answers {A} (port_out : bytes) (f : A -> bytes) (o : verdict A) (out : list sinkcall) : Prop :=
  match o with
  | Silent => out = []
  | Refuses e => out = [KeepError e]
  | Computes a => len (f a) + 5 < lim -> says port_out (f a) out
  end.

Lemma string_encoded s : len s + 5 < lim -> t_encode tr_string s = Ok (mp_str s) /\ t_decode tr_string (mp_str s) = Ok s.
Proof.
  intros L. split.
  - cbn [t_encode tr_string]. unfold write_one. assert (W : wf_call (inl (PStr s))) by (cbn [wf_call wf_prim]; lia).
    destruct (to_bytes_spec [inl (PStr s)] [inl (PStr s)]) as [E _]; [constructor; [exact W|constructor]|constructor; [exact W|constructor]|repeat constructor| |].
    + pose proof (str_cost s) as K. unfold mp_calls, surplus_calls. cbn [map concat mp_call surplus_call surplus_prim sumN fold_right]. rewrite app_nil_r. lia.
    + rewrite E. unfold mp_calls, surplus_calls. cbn. now rewrite !app_nil_r.
  - cbn [t_decode tr_string]. rewrite <- (app_nil_r (mp_str s)). rewrite (read_one_parses _ read_str (mp_str s) s []); [reflexivity|apply mp_str_parses; lia|].
    rewrite app_nil_r. pose proof (str_cost s) as K. cbn [mp_prim] in K. lia.
Qed.
Section Component.
Context {A : Type}.
Variables (port_in port_out : bytes) (dec : bytes -> res A) (f : A -> bytes).
Hypothesis short : len port_out < 65536.
Lemma emit_closed k c : sh_open c = false -> emit k c = c.
Proof. intros H. unfold emit. now rewrite H. Qed.
Definition still (c c' : shot) : Prop := sh_out c' = sh_out c /\ sh_open c' = false.
Lemma closed_shot_answer s c c' : sh_open c = false -> shot_answer port_out s c = Ok c' -> c' = c.
Proof.
  intros H E. unfold shot_answer in E. destruct (t_encode tr_string s); [| |discriminate].
  - apply bind_ok in E. destruct E as (m & _ & E). injection E as <-. rewrite !emit_closed; try reflexivity; try assumption. now rewrite emit_closed.
  - injection E as <-. rewrite !emit_closed; try reflexivity; try assumption. now rewrite emit_closed.
Qed.
Lemma closed_shot_step i c c' : sh_open c = false -> shot_step port_in port_out dec f i c = Ok c' -> still c c'.
Proof.
  intros H E. destruct i as [data meta| |]; cbn [shot_step] in E; try (injection E as <-; now split).
  apply bind_ok in E. destruct E as (p & _ & E). destruct (bytes_eqb (po_port p) port_in); [|injection E as <-; now split].
  destruct (po_next p); [|injection E as <-; now split].
  destruct (dec data) as [a|e|]; [| |discriminate].
  - unfold shot_success in E. destruct (sh_in c); [|injection E as <-; now split]. apply closed_shot_answer in E; [|exact H]. subst c'. now split.
  - injection E as <-. rewrite emit_closed by exact H. now split.
Qed.
Lemma closed_shot_run l : forall c c', sh_open c = false -> shot_run port_in port_out dec f l c = Ok c' -> still c c'.
Proof.
  induction l as [|i l IH]; intros c c' H E; cbn [shot_run] in E; [injection E as <-; now split|].
  apply bind_ok in E. destruct E as (c1 & E1 & E2). apply closed_shot_step in E1; [|exact H]. destruct E1 as [S1 S2]. destruct (IH _ _ S2 E2) as [S3 S4]. split; congruence.
Qed.
Lemma answer_out a c1 : shot_answer port_out (f a) {| sh_in := false; sh_out := []; sh_open := true |} = Ok c1 ->
  sh_open c1 = false /\ (len (f a) + 5 < lim -> says port_out (f a) (sh_out c1)).
Proof.
  unfold shot_answer. intros E. destruct (t_encode tr_string (f a)) as [d|e|] eqn:Ed; [| |discriminate].
  - apply bind_ok in E. destruct E as (m & Em & E). injection E as <-. split; [reflexivity|]. intros L.
    destruct (string_encoded _ L) as [F1 F2]. rewrite F1 in Ed. injection Ed as <-.
    destruct (C33_port_round_trip {| po_port := port_out; po_data := []; po_complete := true; po_next := true |} short) as (b & q & G1 & G2 & G3 & G4 & G5 & G6).
    unfold bytes in *. rewrite Em in G1. injection G1 as <-. exists (mp_str (f a)), m, q. split; [reflexivity|]. split; [exact F2|]. split; [exact G2|]. split; [exact G3|]. split; [exact G4|].
    split; [apply G5; now left|apply G6; now left].
  - injection E as <-. split; [reflexivity|]. intros L. destruct (string_encoded _ L) as [F1 _]. congruence.
Qed.
Lemma shot_output ins : forall c, shot_run port_in port_out dec f ins shot_init = Ok c -> exists o, settles port_in dec ins o /\ shot_answers port_out f o (sh_out c).
Proof.
  induction ins as [|i ins IH]; intros c E; cbn [shot_run] in E.
  - injection E as <-. exists Silent. split; [constructor|reflexivity].
  - apply bind_ok in E. destruct E as (c1 & E1 & E2). destruct i as [data meta| |e]; cbn [shot_step] in E1.
    + apply bind_ok in E1. destruct E1 as (p & Ep & E1). destruct (bytes_eqb (po_port p) port_in) eqn:Eb.
      * apply bytes_eqb_spec in Eb. destruct (po_next p) eqn:En.
        -- destruct (dec data) as [a|e|] eqn:Et; [| |discriminate].
           ++ unfold shot_success in E1. cbn [shot_init sh_in sh_out sh_open] in E1. destruct (answer_out a c1 E1) as [O P].
              apply closed_shot_run in E2; [|exact O]. destruct E2 as [E2 _]. exists (Computes a). split; [eapply st_value; eassumption|]. cbn [shot_answers]. now rewrite E2.
           ++ injection E1 as <-. apply closed_shot_run in E2; [|reflexivity]. destruct E2 as [E2 _]. exists (Refuses e). split; [eapply st_bad; eassumption|]. exact E2.
        -- injection E1 as <-. destruct (IH c E2) as (o & D & P). exists o. split; [|exact P]. eapply st_other; [exact Ep|now right|exact D].
      * injection E1 as <-. destruct (IH c E2) as (o & D & P). exists o. split; [|exact P]. eapply st_other; [exact Ep| |exact D]. left. intros C. apply bytes_eqb_spec in C. congruence.
    + injection E1 as <-. destruct (IH c E2) as (o & D & P). exists o. split; [|exact P]. apply st_end; [discriminate|exact D].
    + injection E1 as <-. destruct (IH c E2) as (o & D & P). exists o. split; [|exact P]. apply st_end; [discriminate|exact D].
Qed.
End Component.
(** The first message for the input port decides; the answer is one message and
    the end, or the error of the decoder. *)
Theorem C91_first_value_decides :
  forall A port_in port_out (dec : bytes -> res A) f ins c, len port_out < 65536 ->
    shot_run port_in port_out dec f ins shot_init = Ok c -> exists o, settles port_in dec ins o /\ shot_answers port_out f o (sh_out c).
Proof. intros. now apply shot_output. Qed.
(** Wanted: when the input ends, so does the answer.  Without a value it never does. *)
Theorem C91_no_value_no_end_refuted :
  forall A port_in port_out (dec : bytes -> res A) f ins, Forall (fun i => forall d m, i = GetNext d m -> exists p, decode_port m = Ok p /\ (po_port p <> port_in \/ po_next p = false)) ins ->
    shot_run port_in port_out dec f ins shot_init = Ok shot_init.
Proof.
  intros A port_in port_out dec f ins F. induction F as [|i l Hi Hl IH]; [reflexivity|]. cbn [shot_run].
  assert (E : shot_step port_in port_out dec f i shot_init = Ok shot_init); [|rewrite E; exact IH].
  destruct i as [d m| |]; try reflexivity. cbn [shot_step]. destruct (Hi d m eq_refl) as (p & -> & H). cbn [bind].
  destruct (bytes_eqb (po_port p) port_in) eqn:Eb; [|reflexivity]. apply bytes_eqb_spec in Eb. destruct H as [H|H]; [contradiction|]. now rewrite H.
Qed.
(** The two components of the flow example joined by its host: the message is
    "Hello, " with both strings. *)
Theorem C91_pipeline :
  forall l r : bytes, len l + len r + 64 < lim -> exists i f0, concat_input (l, r) = Ok i /\ forall fuel ends, (f0 <= fuel)%nat -> Forall (fun x => x = GetComplete) ends ->
    exists c d m i2 c2, concat_run fuel (i :: ends) shot_init = Ok c /\ sh_out c = [KeepNext d m; KeepComplete] /\ forward d m = Ok (Some i2) /\
      greeter_run [i2] shot_init = Ok c2 /\ says port_message (hello ++ l ++ [32] ++ r) (sh_out c2).
Proof.
  intros l r L. destruct C89_round_trip as (_ & RT & _). destruct (RT l r ([], []) L) as (bs & E1 & f0 & E2).
  exists (GetNext bs [1; 0; 7; 115; 116; 114; 105; 110; 103; 115]), f0. split.
  { unfold concat_input. unfold bytes in *. rewrite E1. vm_compute. reflexivity. }
  intros fuel ends Hf Ends.
  assert (Lb : len bs < lim).
  { assert (W : writable strings_table (l, r)).
    { split; [repeat constructor; cbn [strings_table a_field f_put f_name wf_prim fst snd]; lia|].
      rewrite calls_on_wire. unfold on_wire. cbn [strings_table map concat a_field f_name f_put fst snd]. rewrite app_nil_r, !len_app.
      pose proof (str_cost l). pose proof (str_cost r). pose proof lens. unfold bytes in *. change (len name_left) with 4. change (len name_right) with 5. lia. }
    pose proof (encode_table _ _ _ W) as K. unfold bytes in *. rewrite K in E1. injection E1 as <-. destruct W as [_ W]. now rewrite calls_on_wire in W. }
  assert (D : decode_strings fuel bs = Ok (l, r)).
  { unfold decode_strings. specialize (E2 fuel Hf [] []). rewrite app_nil_r in E2. change (new_reader bs) with (at_ [] bs). rewrite E2; [reflexivity|]. exact Lb. }
  assert (J : len (join_words (l, r)) + 5 < lim) by (unfold join_words; cbn [fst snd]; rewrite !len_app; change (len [32]) with 1; lia).
  destruct (string_encoded _ J) as [J1 J2].
  exists {| sh_in := false; sh_out := [KeepNext (mp_str (join_words (l, r))) [1; 0; 5; 118; 97; 108; 117; 101]; KeepComplete]; sh_open := false |}.
  exists (mp_str (join_words (l, r))), [1; 0; 5; 118; 97; 108; 117; 101], (GetNext (mp_str (join_words (l, r))) [1; 0; 4; 110; 97; 109; 101]).
  assert (J' : len (hello ++ join_words (l, r)) + 5 < lim).
  { rewrite len_app. change (len hello) with 7. unfold join_words. cbn [fst snd]. rewrite !len_app. change (len [32]) with 1. lia. }
  destruct (string_encoded _ J') as [H1 H2].
  exists {| sh_in := false; sh_out := [KeepNext (mp_str (hello ++ join_words (l, r))) [1; 0; 7; 109; 101; 115; 115; 97; 103; 101]; KeepComplete]; sh_open := false |}.
  split; [|split; [reflexivity|split; [reflexivity|split]]].
  - unfold concat_run. cbn [shot_run shot_step]. replace (decode_port [1; 0; 7; 115; 116; 114; 105; 110; 103; 115]) with (Ok {| po_port := port_strings; po_data := []; po_complete := true; po_next := true |}) by reflexivity.
    cbn [bind po_port po_next]. rewrite (proj2 (bytes_eqb_spec port_strings port_strings) eq_refl). rewrite D. unfold shot_success. cbn [shot_init sh_in sh_out sh_open]. unfold shot_answer. rewrite J1.
    replace (encode_port {| po_port := port_value; po_data := []; po_complete := true; po_next := true |}) with (Ok [1; 0; 5; 118; 97; 108; 117; 101]) by reflexivity.
    cbn [bind]. unfold emit. cbn [sh_in sh_out sh_open app]. induction Ends as [|x ends -> _ IH]; [reflexivity|]. exact IH.
  - unfold greeter_run. cbn [shot_run shot_step]. replace (decode_port [1; 0; 4; 110; 97; 109; 101]) with (Ok {| po_port := port_name; po_data := []; po_complete := true; po_next := true |}) by reflexivity.
    cbn [bind po_port po_next]. rewrite (proj2 (bytes_eqb_spec port_name port_name) eq_refl). rewrite J2. unfold shot_success. cbn [shot_init sh_in sh_out sh_open]. unfold shot_answer. rewrite H1.
    replace (encode_port {| po_port := port_message; po_data := []; po_complete := true; po_next := true |}) with (Ok [1; 0; 7; 109; 101; 115; 115; 97; 103; 101]) by reflexivity.
    reflexivity.
  - eexists _, _, _. split; [reflexivity|]. split; [exact H2|]. split; [reflexivity|]. repeat split.
Qed.
Example C91_example :
  exists i c d m i2 c2, concat_input ([70; 111; 111], [66; 97; 114]) = Ok i /\ concat_run 9 [i; GetComplete] shot_init = Ok c /\ sh_out c = [KeepNext d m; KeepComplete] /\
    forward d m = Ok (Some i2) /\ greeter_run [i2; GetError "late"; i2] shot_init = Ok c2 /\
    sh_out c2 = [KeepNext [174; 72; 101; 108; 108; 111; 44; 32; 70; 111; 111; 32; 66; 97; 114] [1; 0; 7; 109; 101; 115; 115; 97; 103; 101]; KeepComplete] /\
    greeter_run [GetNext [] [1; 0; 5; 111; 116; 104; 101; 114]; GetComplete] shot_init = Ok shot_init /\
    exists c3, greeter_run [GetNext [193] [1; 0; 4; 110; 97; 109; 101]; i2] shot_init = Ok c3 /\ exists e, sh_out c3 = [KeepError e].
Proof.
  eexists _, _, _, _, _, _. split; [vm_compute; reflexivity|]. split; [vm_compute; reflexivity|]. split; [vm_compute; reflexivity|]. split; [vm_compute; reflexivity|]. split; [vm_compute; reflexivity|].
  split; [vm_compute; reflexivity|]. split; [vm_compute; reflexivity|]. eexists. split; [vm_compute; reflexivity|]. eexists. vm_compute. reflexivity.
Qed.
Print Assumptions C91_first_value_decides.
Print Assumptions C91_no_value_no_end_refuted.
Print Assumptions C91_pipeline.
