(** C90: the word frequency component. *)
From Verif Require Import Base BaseFacts MsgpackModel MsgpackSpec MsgpackProofs MsgpackValues MsgpackAny RecordModel RecordProofs InvokeModel InvokeProps TransformModel TransformProps TableModel TableProps WordModel.
From Coq Require Import Permutation Sorted.
Local Ltac Zify.zify_post_hook ::= Z.div_mod_to_equations.
Local Notation lim := 4294967296 (only parsing).

(** Specification. *)
Definition times (w : bytes) (l : list bytes) : N := N.of_nat (count_occ (list_eq_dec N.eq_dec) l w).
(** How Go may arrange the entries of a map: every entry once, highest count first. *)
Definition arranges (arrange : list (bytes * N) -> list (bytes * N)) : Prop :=
  forall t, Permutation (arrange t) t /\ StronglySorted (fun a b => snd b <= snd a) (arrange t).
(** What the component tells about [ws]. *)
Definition told (lower : bytes -> bytes) (arrange : list (bytes * N) -> list (bytes * N)) (ws : list bytes) : list (bytes * N) :=
  arrange (fold_left (see_word lower) ws []).

Lemma in_bump : forall w t, NoDup (map fst t) -> forall v n, In (v, n) (bump w t) <->
  (v <> w /\ In (v, n) t) \/ (v = w /\ ((~ In w (map fst t) /\ n = 1) \/ exists k, In (w, k) t /\ n = (k + 1) mod 18446744073709551616)).
Proof.
  intros w. induction t as [|[w' k] t IH]; intros ND v n; cbn [bump].
  - cbn. split; [intros [[= -> ->]|[]]; right; split; [reflexivity|left; tauto]|]. intros [[_ []]|[-> [[_ ->]|(k & [] & _)]]]. now left.
  - cbn [map fst] in ND. inversion ND as [|? ? Hw Ht]; subst. destruct (bytes_eqb w w') eqn:E.
    + apply bytes_eqb_spec in E. subst w'. cbn [In map fst]. split.
      * intros [[= -> <-]|H]; [right; split; [reflexivity|right]; exists k; split; [now left|reflexivity]|].
        left. split; [|now right]. intros ->. apply Hw. now apply (in_map fst) in H.
      * intros [[Hv [[= <- <-]|H]]|[-> [[H _]|(k' & [[= <-]|H] & ->)]]].
        -- now destruct Hv.
        -- now right.
        -- exfalso. apply H. now left.
        -- now left.
        -- exfalso. apply Hw. now apply (in_map fst) in H.
    + assert (N1 : w <> w') by (intros ->; now rewrite (proj2 (bytes_eqb_spec _ _) eq_refl) in E). cbn [In map fst]. rewrite (IH Ht). split.
      * intros [[= <- <-]|[[H1 H2]|[-> [[H1 H2]|(k' & H1 & H2)]]]].
        -- left. split; [congruence|now left].
        -- left. split; [exact H1|now right].
        -- right. split; [reflexivity|left]. split; [|exact H2]. intros [C|C]; [now apply N1|now apply H1].
        -- right. split; [reflexivity|right]. exists k'. split; [now right|exact H2].
      * intros [[H1 [[= <- <-]|H2]]|[-> [[H1 H2]|(k' & [[= <- <-]|H1] & H2)]]].
        -- now left.
        -- right. left. now split.
        -- right. right. split; [reflexivity|left]. split; [|exact H2]. intros C. apply H1. now right.
        -- now destruct N1.
        -- right. right. split; [reflexivity|right]. exists k'. now split.
Qed.
Lemma keys_bump : forall w t v, In v (map fst (bump w t)) <-> v = w \/ In v (map fst t).
Proof.
  intros w t v. induction t as [|[w' k] t IH]; cbn [bump]; [cbn; intuition congruence|]. destruct (bytes_eqb w w') eqn:E.
  - apply bytes_eqb_spec in E. subst w'. cbn. intuition congruence.
  - cbn [map fst In]. rewrite IH. tauto.
Qed.
Lemma nodup_bump : forall w t, NoDup (map fst t) -> NoDup (map fst (bump w t)).
Proof.
  intros w. induction t as [|[w' k] t IH]; intros ND; cbn [bump]; [repeat constructor; intros []|]. cbn [map fst] in ND. inversion ND as [|? ? Hw Ht]; subst.
  destruct (bytes_eqb w w') eqn:E; cbn [map fst]; constructor; try assumption; [|now apply IH].
  rewrite keys_bump. intros [->|C]; [|now apply Hw]. now rewrite (proj2 (bytes_eqb_spec _ _) eq_refl) in E.
Qed.
Lemma ignored_spec : forall w, is_ignored w = true <-> In w ignored_words.
Proof.
  intros w. unfold is_ignored. rewrite existsb_exists. split.
  - intros (x & H & E). apply bytes_eqb_spec in E. now subst.
  - intros H. exists w. split; [exact H|]. now apply bytes_eqb_spec.
Qed.
Definition right_table (l : list bytes) (t : list (bytes * N)) : Prop :=
  NoDup (map fst t) /\ forall w n, In (w, n) t <-> ~ In w ignored_words /\ In w l /\ n = times w l mod 18446744073709551616.
Lemma times_snoc : forall w l v, times w (l ++ [v]) = times w l + if list_eq_dec N.eq_dec v w then 1 else 0.
Proof. intros. unfold times. rewrite count_occ_app, Nat2N.inj_add. f_equal. cbn [count_occ]. now destruct (list_eq_dec N.eq_dec v w). Qed.
Lemma right_step : forall lower l t w, right_table l t -> right_table (l ++ [lower w]) (see_word lower t w).
Proof.
  intros lower l t w [ND H]. unfold see_word. set (v := lower w). clearbody v. destruct (is_ignored v) eqn:E.
  - apply ignored_spec in E. split; [exact ND|]. intros u n. rewrite H, in_app_iff, times_snoc. cbn [In].
    destruct (list_eq_dec N.eq_dec v u) as [->|Hv]; [tauto|]. rewrite N.add_0_r. intuition.
  - assert (NI : ~ In v ignored_words) by (intros C; apply ignored_spec in C; congruence).
    split; [now apply nodup_bump|]. intros u n. rewrite (in_bump v t ND), in_app_iff, times_snoc. cbn [In].
    destruct (list_eq_dec N.eq_dec v u) as [->|Hv].
    + split.
      * intros [[C _]|[_ [[H1 ->]|(k & H1 & ->)]]]; [congruence| |].
        -- split; [exact NI|]. split; [tauto|]. assert (Z : times u l = 0); [|rewrite Z; reflexivity]. unfold times.
           rewrite (proj1 (count_occ_not_In _ _ _)); [reflexivity|]. intros C. apply H1. change u with (fst (u, times u l mod 18446744073709551616)). apply in_map, H. auto.
        -- apply H in H1. destruct H1 as (_ & H1 & ->). split; [exact NI|]. split; [tauto|]. lia.
      * intros (_ & _ & ->). right. split; [reflexivity|]. destruct (in_dec (list_eq_dec N.eq_dec) u l) as [I|I].
        -- right. exists (times u l mod 18446744073709551616). split; [apply H; auto|lia].
        -- left. split; [|unfold times; rewrite (proj1 (count_occ_not_In _ _ _) I); reflexivity]. intros C. apply in_map_iff in C. destruct C as ([u' k] & <- & C). apply H in C. now apply I.
    + rewrite N.add_0_r, H. intuition congruence.
Qed.
Lemma right_all : forall lower ws, right_table (map lower ws) (fold_left (see_word lower) ws []).
Proof.
  intros lower ws. induction ws as [|w ws IH] using rev_ind.
  - split; [constructor|]. intros w n. cbn. tauto.
  - rewrite fold_left_app, map_app. cbn [fold_left map]. now apply right_step.
Qed.
(** The component tells every word that is not ignored once, with the number of
    its occurrences (modulo 2^64), highest first. *)
Theorem C90_counts_are_right :
  forall lower arrange ws, arranges arrange ->
    let l := told lower arrange ws in
    NoDup (map fst l) /\ StronglySorted (fun a b => snd b <= snd a) l /\
    forall w n, In (w, n) l <-> ~ In w ignored_words /\ In w (map lower ws) /\ n = times w (map lower ws) mod 18446744073709551616.
Proof.
  intros lower arrange ws A l. destruct (A (fold_left (see_word lower) ws [])) as [P O]. fold (told lower arrange ws) in P, O. fold l in P, O.
  destruct (right_all lower ws) as [ND H]. split; [|split; [exact O|]].
  - apply (Permutation_NoDup (l := map fst (fold_left (see_word lower) ws []))); [apply Permutation_map; now symmetry|exact ND].
  - intros w n. rewrite <- H. split; apply Permutation_in; [exact P|now symmetry].
Qed.

(** The handler around it: what decides the answer. *)
Inductive outcome := Told (w : bytes) | Refused (e : string) | Empty | Waiting.
Inductive decides : list wfin -> outcome -> Prop :=
| dc_wait : decides [] Waiting
| dc_end l : decides (InComplete :: l) Empty
| dc_word data meta p w l : decode_port meta = Ok p -> po_port p = port_words -> po_next p = true -> t_decode tr_string data = Ok w -> decides (InNext data meta :: l) (Told w)
| dc_bad data meta p e l : decode_port meta = Ok p -> po_port p = port_words -> po_next p = true -> t_decode tr_string data = Err e -> decides (InNext data meta :: l) (Refused e)
| dc_other data meta p l o : decode_port meta = Ok p -> po_port p <> port_words \/ po_next p = false -> decides l o -> decides (InNext data meta :: l) o.
(** The metadata of an answer: port "counts", flagged as a value and as the end. *)
Definition counts_mark (m : bytes) : Prop := exists p, decode_port m = Ok p /\ po_port p = port_counts /\ po_next p = true /\ po_complete p = true.
Definition answers (lower : bytes -> bytes) (o : outcome) (out : list sinkcall) : Prop :=
  match o with
  | Waiting => out = []
  | Refused e => out = [KeepError e]
  | Empty => exists m, counts_mark m /\ out = [KeepNext [] m; KeepComplete]
  | Told w => len (lower w) + 64 < lim -> exists m, counts_mark m /\
      if in_dec (list_eq_dec N.eq_dec) (lower w) ignored_words then out = [KeepNext [] m; KeepComplete]
      else exists d, out = [KeepNext d m; KeepNext [] m; KeepComplete] /\ fparses (tab_decode count_table ([], 0)) d (lower w, 1)
  end.
Lemma flags_equal : forall meta p, decode_port meta = Ok p -> po_complete p = po_next p.
Proof.
  intros meta p. unfold decode_port. destruct (get_be 1 meta) as [fl| |]; cbn [bind]; try discriminate.
  destruct (get_be 2 (snd fl)) as [pl| |]; cbn [bind]; try discriminate. destruct (split_at (fst pl) (snd pl)) as [q| |]; cbn [bind]; try discriminate.
  intros [= <-]. reflexivity.
Qed.
Lemma bind_ok A B (a : res A) (f : A -> res B) b : bind a f = Ok b -> exists x, a = Ok x /\ f x = Ok b.
Proof. destruct a; cbn [bind]; try discriminate. eauto. Qed.
Definition mark : bytes := [1; 0; 6; 99; 111; 117; 110; 116; 115].
Lemma mark_next : encode_port {| po_port := port_counts; po_data := []; po_complete := false; po_next := true |} = Ok mark.
Proof. vm_compute. reflexivity. Qed.
Lemma mark_complete : encode_port {| po_port := port_counts; po_data := []; po_complete := true; po_next := false |} = Ok mark.
Proof. vm_compute. reflexivity. Qed.
Lemma mark_counts : counts_mark mark.
Proof. eexists. split; [vm_compute; reflexivity|]. repeat split. Qed.
Definition same_out (c c' : wordfreq) : Prop := wf_sink c' = wf_sink c /\ wf_sink_open c' = false.
Lemma closed_call k c : wf_sink_open c = false -> same_out c (sink_call k c).
Proof. intros H. unfold sink_call. rewrite H. now split. Qed.
Lemma same_trans c c1 c2 : same_out c c1 -> same_out c1 c2 -> same_out c c2.
Proof. intros [A B] [C D]. split; congruence. Qed.
Lemma closed_all l : forall c c', wf_sink_open c = false -> counts_all l c = Ok c' -> same_out c c'.
Proof.
  induction l as [|wc l IH]; intros c c' H E; cbn [counts_all] in E.
  - unfold counts_complete in E. rewrite mark_complete in E. cbn [bind] in E. injection E as <-.
    eapply same_trans; [|apply closed_call, closed_call; exact H].
    match goal with |- same_out _ (sink_call _ ?x) => assert (K : same_out c x) by (split; [reflexivity|exact H]) end.
    eapply same_trans; [exact K|]. apply closed_call. exact H.
  - apply bind_ok in E. destruct E as (c1 & E1 & E2).
    assert (K : same_out c c1).
    { unfold counts_next in E1. rewrite mark_next in E1. cbn [bind] in E1.
      destruct (to_bytes (count_calls wc) (count_calls wc)); try discriminate; injection E1 as <-; now apply closed_call. }
    eapply same_trans; [exact K|]. apply IH; [apply K|exact E2].
Qed.
Section Handler.
Variables (lower : bytes -> bytes) (arrange : list (bytes * N) -> list (bytes * N)).
Lemma closed_complete c c' : wf_sink_open c = false -> words_complete arrange c = Ok c' -> same_out c c'.
Proof.
  unfold words_complete. intros H E. destruct (wf_words_open c); [|injection E as <-; now split].
  destruct (wf_counts_open c); [|injection E as <-; now split]. apply closed_all in E; [|exact H]. exact E.
Qed.
Lemma closed_step i c c' : wf_sink_open c = false -> wf_step lower arrange i c = Ok c' -> same_out c c'.
Proof.
  intros H E. destruct i as [data meta|]; cbn [wf_step] in E; [|now apply closed_complete].
  apply bind_ok in E. destruct E as (p & _ & E). destruct (bytes_eqb (po_port p) port_words); [|injection E as <-; now split].
  destruct (po_next p).
  - destruct (t_decode tr_string data) as [w|e|]; [|injection E as <-; now apply closed_call|discriminate].
    assert (K : same_out c (words_next lower w c)) by (unfold words_next; destruct (wf_words_open c); now split).
    destruct (po_complete p); [|injection E as <-; exact K]. eapply same_trans; [exact K|]. apply closed_complete; [apply K|exact E].
  - destruct (po_complete p); [now apply closed_complete|injection E as <-; now split].
Qed.
Lemma closed_run l : forall c c', wf_sink_open c = false -> wf_run lower arrange l c = Ok c' -> same_out c c'.
Proof.
  induction l as [|i l IH]; intros c c' H E; cbn [wf_run] in E; [injection E as <-; now split|].
  apply bind_ok in E. destruct E as (c1 & E1 & E2). apply closed_step in E1; [|exact H]. eapply same_trans; [exact E1|]. apply IH; [apply E1|exact E2].
Qed.
Hypothesis arr : arranges arrange.
Lemma arrange_nil : arrange [] = [].
Proof. destruct (arr []) as [P _]. apply Permutation_sym, Permutation_nil in P. exact P. Qed.
Lemma arrange_one x : arrange [x] = [x].
Proof. destruct (arr [x]) as [P _]. apply Permutation_sym, Permutation_length_1_inv in P. exact P. Qed.
Lemma empty_out c1 : words_complete arrange wf_init = Ok c1 -> wf_sink c1 = [KeepNext [] mark; KeepComplete] /\ wf_sink_open c1 = false.
Proof.
  unfold words_complete. cbn [wf_init wf_words_open wf_counts_open wf_table]. rewrite arrange_nil. cbn [counts_all]. unfold counts_complete. rewrite mark_complete. cbn [bind].
  intros [= <-]. split; reflexivity.
Qed.
Lemma told_out w c1 : words_complete arrange (words_next lower w wf_init) = Ok c1 -> wf_sink_open c1 = false /\ answers lower (Told w) (wf_sink c1).
Proof.
  unfold words_complete, words_next. cbn [wf_init wf_words_open wf_counts_open wf_table wf_sink wf_sink_open]. unfold see_word.
  destruct (is_ignored (lower w)) eqn:E.
  - rewrite arrange_nil. cbn [counts_all]. unfold counts_complete. rewrite mark_complete. cbn [bind].
    intros [= <-]. split; [reflexivity|]. intros _. exists mark. split; [exact mark_counts|]. apply ignored_spec in E. destruct (in_dec _ _ _); [reflexivity|contradiction].
  - cbn [bump]. rewrite arrange_one. cbn [counts_all]. unfold counts_next. rewrite mark_next. intros H. cbn [bind] in H.
    split.
    + destruct (to_bytes _ _) as [d|e|]; cbn [bind] in H; [| |discriminate].
      * unfold counts_complete in H. rewrite mark_complete in H. cbn [bind] in H. injection H as <-. reflexivity.
      * apply closed_all with (l := []) in H; [apply H|reflexivity].
    + intros L. destruct C89_round_trip as (_ & _ & RT & _). destruct (RT (lower w) 1 ([], 0) L eq_refl) as (d & E1 & E2).
      change (to_bytes (count_calls (lower w, 1)) (count_calls (lower w, 1)) = Ok d) in E1. rewrite E1 in H. cbn [bind] in H. unfold counts_complete in H. rewrite mark_complete in H. cbn [bind] in H. injection H as <-.
      exists mark. split; [exact mark_counts|]. destruct (in_dec _ _ _) as [I|I]; [apply ignored_spec in I; congruence|]. exists d. split; [reflexivity|exact E2].
Qed.
Lemma handler_output ins : forall c, wf_run lower arrange ins wf_init = Ok c -> exists o, decides ins o /\ answers lower o (wf_sink c).
Proof.
  induction ins as [|i ins IH]; intros c E; cbn [wf_run] in E.
  - injection E as <-. exists Waiting. split; [constructor|reflexivity].
  - apply bind_ok in E. destruct E as (c1 & E1 & E2). destruct i as [data meta|]; cbn [wf_step] in E1.
    + apply bind_ok in E1. destruct E1 as (p & Ep & E1). destruct (bytes_eqb (po_port p) port_words) eqn:Eb.
      * apply bytes_eqb_spec in Eb. rewrite (flags_equal _ _ Ep) in E1. destruct (po_next p) eqn:En.
        -- destruct (t_decode tr_string data) as [w|e|] eqn:Et; [| |discriminate].
           ++ destruct (told_out w c1 E1) as [O A]. apply closed_run in E2; [|exact O]. destruct E2 as [E2 _]. rewrite <- E2 in A. exists (Told w). split; [|exact A]. eapply dc_word; eassumption.
           ++ injection E1 as <-. apply closed_run in E2; [|reflexivity]. destruct E2 as [E2 _]. exists (Refused e). split; [eapply dc_bad; eassumption|]. exact E2.
        -- injection E1 as <-. destruct (IH c E2) as (o & D & A). exists o. split; [|exact A]. eapply dc_other; [exact Ep|now right|exact D].
      * injection E1 as <-. destruct (IH c E2) as (o & D & A). exists o. split; [|exact A]. eapply dc_other; [exact Ep| |exact D]. left. intros C. apply bytes_eqb_spec in C. congruence.
    + destruct (empty_out c1 E1) as [S1 O1]. apply closed_run in E2; [|exact O1]. destruct E2 as [E2 _]. exists Empty. split; [constructor|]. exists mark. split; [exact mark_counts|]. now rewrite E2.
Qed.
End Handler.
(** The handler's answer is decided by the first message for port "words" or
    the end of the input, whatever else arrives. *)
Theorem C90_first_message_decides :
  forall lower arrange ins c, arranges arrange -> wf_run lower arrange ins wf_init = Ok c -> exists o, decides ins o /\ answers lower o (wf_sink c).
Proof. intros lower arrange ins c A. now apply handler_output. Qed.

(** A word as a client sends it. *)
Definition word_message (w : bytes) (i : wfin) : Prop :=
  exists d m, t_encode tr_string w = Ok d /\ encode_port {| po_port := port_words; po_data := []; po_complete := false; po_next := true |} = Ok m /\ i = InNext d m.
Definition word_mark : bytes := [1; 0; 5; 119; 111; 114; 100; 115].
Lemma word_mark_ok : encode_port {| po_port := port_words; po_data := []; po_complete := false; po_next := true |} = Ok word_mark.
Proof. vm_compute. reflexivity. Qed.
Lemma word_mark_dec : decode_port word_mark = Ok {| po_port := port_words; po_data := []; po_complete := true; po_next := true |}.
Proof. vm_compute. reflexivity. Qed.
Lemma word_step lower arrange w i c : len w + 5 < lim -> word_message w i -> wf_step lower arrange i c = words_complete arrange (words_next lower w c).
Proof.
  intros L (d & m & E1 & E2 & ->). rewrite word_mark_ok in E2. injection E2 as <-. cbn [wf_step]. rewrite word_mark_dec. cbn [bind po_port po_next po_complete].
  rewrite (proj2 (bytes_eqb_spec port_words port_words) eq_refl).
  assert (D : d = mp_str w).
  { cbn [t_encode tr_string] in E1. unfold write_one in E1. assert (W : wf_call (inl (PStr w))) by (cbn [wf_call wf_prim]; lia).
    destruct (to_bytes_spec [inl (PStr w)] [inl (PStr w)]) as [E _]; [constructor; [exact W|constructor]|constructor; [exact W|constructor]|repeat constructor| |].
    - pose proof (str_cost w) as K. unfold mp_calls, surplus_calls. cbn [map concat mp_call surplus_call surplus_prim sumN fold_right]. rewrite app_nil_r. lia.
    - rewrite E in E1. injection E1 as <-. unfold mp_calls, surplus_calls. cbn. now rewrite !app_nil_r. }
  subst d. cbn [t_decode tr_string]. rewrite <- (app_nil_r (mp_str w)). rewrite (read_one_parses _ read_str (mp_str w) w []); [reflexivity|apply mp_str_parses; lia|].
  rewrite app_nil_r. pose proof (str_cost w) as K. cbn [mp_prim] in K. lia.
Qed.
(** What a client wants: every word it sends is counted.  Whatever the words, the
    answer is that of the first. *)
Theorem C90_later_words_lost_refuted :
  forall lower arrange (w : bytes) (ws : list bytes) msgs, arranges arrange -> Forall (fun x => len x + 5 < lim) (w :: ws) -> len (lower w) + 64 < lim ->
    Forall2 word_message (w :: ws) msgs ->
    exists c, wf_run lower arrange (msgs ++ [InComplete]) wf_init = Ok c /\ answers lower (Told w) (wf_sink c).
Proof.
  intros lower arrange w ws msgs A L Lw F. inversion F as [|? i ? msgs' Fi Fs]; subst. inversion L as [|? ? L1 L2]; subst.
  cbn [app wf_run]. rewrite (word_step _ _ w i _ L1 Fi).
  assert (K : exists c1, words_complete arrange (words_next lower w wf_init) = Ok c1 /\ wf_words_open c1 = false).
  { unfold words_complete, words_next. cbn [wf_init wf_words_open wf_counts_open wf_table wf_sink wf_sink_open]. unfold see_word.
    destruct (is_ignored (lower w)).
    - rewrite (arrange_nil _ A). cbn [counts_all]. unfold counts_complete. rewrite mark_complete. cbn [bind]. eexists. split; reflexivity.
    - cbn [bump]. rewrite (arrange_one _ A). cbn [counts_all]. unfold counts_next. rewrite mark_next. cbn [bind].
      destruct C89_round_trip as (_ & _ & RT & _). destruct (RT (lower w) 1 ([], 0) Lw eq_refl) as (d & E1 & _).
      change (to_bytes (count_calls (lower w, 1)) (count_calls (lower w, 1)) = Ok d) in E1. unfold bytes in *. rewrite E1. cbn [bind]. unfold counts_complete. rewrite mark_complete. cbn [bind]. eexists. split; reflexivity. }
  destruct K as (c1 & K1 & K2). rewrite K1. cbn [bind]. destruct (told_out lower arrange A w c1 K1) as [_ T]. exists c1. split; [|exact T].
  clear -K2 L2 Fs. revert L2. induction Fs as [|x j ws msgs Hx Hl IH]; intros L2; cbn [app wf_run].
  - cbn [wf_step]. unfold words_complete. rewrite K2. reflexivity.
  - inversion L2 as [|? ? Lx Ll]; subst. rewrite (word_step _ _ x j _ Lx Hx). unfold words_next. rewrite K2. unfold words_complete. rewrite K2. cbn [bind]. now apply IH.
Qed.
(** Words: "The" "Cat" "sat" ... on ASCII letters. *)
Definition ascii_lower (s : bytes) : bytes := map (fun c => if (65 <=? c) && (c <=? 90) then c + 32 else c) s.
Fixpoint put_in (x : bytes * N) (l : list (bytes * N)) : list (bytes * N) :=
  match l with [] => [x] | y :: l' => if snd y <=? snd x then x :: y :: l' else y :: put_in x l' end.
Definition insertion (l : list (bytes * N)) : list (bytes * N) := fold_right put_in [] l.
Lemma insertion_arranges : arranges insertion.
Proof.
  assert (P : forall x l, Permutation (put_in x l) (x :: l)).
  { intros x l. induction l as [|y l IH]; cbn [put_in]; [constructor; constructor|]. destruct (snd y <=? snd x); [apply Permutation_refl|].
    eapply Permutation_trans; [apply perm_skip, IH|apply perm_swap]. }
  assert (O : forall x l, StronglySorted (fun a b => snd b <= snd a) l -> StronglySorted (fun a b => snd b <= snd a) (put_in x l)).
  { intros x l H. induction H as [|y l Hl IH Hy]; cbn [put_in]; [repeat constructor|]. destruct (N.leb_spec (snd y) (snd x)).
    - constructor; [now constructor|]. constructor; [assumption|]. revert Hy. apply Forall_impl. intros a Ha. cbn in *. lia.
    - constructor; [exact IH|]. apply (Permutation_Forall (Permutation_sym (P x l))). constructor; [lia|exact Hy]. }
  intros t. unfold insertion. induction t as [|x t [I1 I2]]; cbn [fold_right]; [split; constructor|]. split; [|now apply O].
  eapply Permutation_trans; [apply P|]. now apply perm_skip.
Qed.
Example C90_example :
  told ascii_lower insertion [[84; 104; 101]; [67; 97; 116]; [115; 97; 116]; [99; 97; 116]] = [([99; 97; 116], 2); ([115; 97; 116], 1)] /\
  exists c, wf_run ascii_lower insertion [InNext [163; 67; 97; 116] word_mark; InNext [163; 115; 97; 116] word_mark; InComplete] wf_init = Ok c /\
    wf_sink c = [KeepNext [130; 164; 119; 111; 114; 100; 163; 99; 97; 116; 165; 99; 111; 117; 110; 116; 1] mark; KeepNext [] mark; KeepComplete] /\
    Forall2 word_message [[67; 97; 116]; [115; 97; 116]] [InNext [163; 67; 97; 116] word_mark; InNext [163; 115; 97; 116] word_mark] /\
    decides [InNext [163; 67; 97; 116] word_mark; InNext [163; 115; 97; 116] word_mark; InComplete] (Told [67; 97; 116]).
Proof.
  split; [vm_compute; reflexivity|]. eexists. split; [vm_compute; reflexivity|]. split; [vm_compute; reflexivity|]. split.
  - constructor; [|constructor; [|constructor]]; eexists _, _; (split; [vm_compute; reflexivity|]); (split; [vm_compute; reflexivity|]); reflexivity.
  - eapply dc_word; vm_compute; reflexivity.
Qed.
Print Assumptions C90_counts_are_right.
Print Assumptions C90_first_message_decides.
Print Assumptions C90_later_words_lost_refuted.
