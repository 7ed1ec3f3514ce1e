(** C96, C97: typed remote streams and channels. *)
From Verif Require Import Base BaseFacts FramesModel WasmModel MsgpackModel MsgpackSpec MsgpackProofs MsgpackValues MsgpackProps RecordModel RecordProofs InvokeModel InvokeProofs InvokeProps TransformModel TransformProps
  TableModel TableProps LookupModel TcpModel HandlerModel HandlerFacts HandlerProps HandlerCallProps HandlerServeProps JointModel JointFacts JointProps StubModel StubProps StreamFacts StreamProps ChannelProps StreamStubModel.
From Verif Require FluxModel FluxFacts FluxProps ProcProps.
Local Notation lim := 4294967296 (only parsing).

(** *** Specification: what a subscriber would see of a flux if it were
    subscribed to it directly: the calls made on the sink, up to the one that ends it. *)
Definition shown {A} (k : FluxModel.fcall A bytes) : list (FluxModel.fobs A bytes) :=
  match k with FluxModel.KNext a => [FluxModel.ONext a] | FluxModel.KComplete => [FluxModel.OComplete] | FluxModel.KError e => [FluxModel.OError e] | FluxModel.KCancel => [] end.
(** What subscriber 0 of a mapped flux was shown apart from Finally. *)
Definition seen {V D C St} (c : FluxModel.fconf V bytes (FluxModel.fobs D bytes) C St) : list (FluxModel.fobs D bytes) :=
  filter (fun o => negb (FluxProps.is_final o)) (FluxProps.observed (FluxModel.fc_trace c)).
(** The calls made on the sink of subscriber 0 that count. *)
Definition pushed {V O C St} (c : FluxModel.fconf V bytes O C St) : list (FluxModel.fcall V bytes) := FluxFacts.effective (FluxFacts.fcalls 0 (FluxModel.fc_trace c)).
Definition call_map {V W} (f : V -> W + bytes) (k : FluxModel.fcall V bytes) : FluxModel.fcall W bytes :=
  match k with
  | FluxModel.KNext v => match f v with inl w => FluxModel.KNext w | inr e => FluxModel.KError e end
  | FluxModel.KComplete => FluxModel.KComplete | FluxModel.KError e => FluxModel.KError e | FluxModel.KCancel => FluxModel.KCancel
  end.

(** ** What the subscriber of a mapped flux sees *)
Lemma mapped_seen : forall V D C St wasm source code (st : St) (tx : V -> D + bytes) fn fc fe dr df nr threads sched,
  FluxProps.quiet_world (C := C) source code tx (Some fn) (Some fc) (Some fe) dr df -> Forall (Forall FluxProps.silent) threads ->
  let c := FluxProps.mapped_run wasm source code st tx (Some fn) (Some fc) (Some fe) dr df nr threads sched in
  FluxModel.fc_stack c = [] -> seen c = flat_map shown (map (call_map tx) (pushed c)).
Proof.
  intros V D C St wasm source code st tx fn fc fe dr df nr threads sched W T c K.
  pose proof (FluxProps.C54_mapped_events V bytes D C St wasm source code st tx (Some fn) (Some fc) (Some fe) dr df nr threads sched W T K) as O. fold c in O.
  pose proof (FluxProps.map_observes _ _ tx (Some fn) (Some fc) (Some fe) dr df nr W) as Ob.
  destruct (FluxProps.flux_observed _ _ Ob wasm source code (FluxProps.w_source _ _ _ _ _ _ _ _ W) (FluxProps.w_code _ _ _ _ _ _ _ _ W) st threads sched T) as [(m & M1 & M2) _].
  change (FluxModel.frun wasm source code (0 :: 0 :: sched)%nat (FluxModel.finit st ([FluxModel.FSubscribe (FluxModel.fmap_handlers tx (Some fn) (Some fc) (Some fe) dr df nr)] :: threads))) with c in M1.
  pose proof (FluxProps.C51_effective_calls_delivered V bytes (FluxModel.fobs D bytes) C St wasm source code st _ (0 :: 0 :: sched)%nat 0%nat m M1) as Dl. cbv zeta in Dl. rewrite M2 in Dl.
  change (FluxFacts.delivered 0 (FluxModel.fc_trace c) = flat_map (FluxFacts.visible (FluxModel.fmap_handlers tx (Some fn) (Some fc) (Some fe) dr df nr)) (pushed c)) in Dl.
  set (g := fun o : FluxModel.fobs V bytes => match o with
    | FluxModel.ONext v => match tx v with inl d => [FluxModel.ONext d] | inr e => [FluxModel.OError e] end
    | FluxModel.OComplete => [FluxModel.OComplete] | FluxModel.OError e => [FluxModel.OError e] | FluxModel.OFinally _ => [] end).
  unfold seen. rewrite O.
  assert (E : filter (fun o => negb (FluxProps.is_final o)) (FluxProps.expected (FluxProps.map_image tx true true (FluxProps.has df)) (FluxModel.fc_trace c)) = flat_map g (FluxFacts.delivered 0 (FluxModel.fc_trace c))).
  { unfold FluxProps.expected, FluxFacts.delivered. generalize (FluxModel.fc_trace c) as t. induction t as [|x t IH]; [reflexivity|]. cbn [flat_map]. rewrite filter_app, flat_map_app, IH. f_equal.
    destruct x; try reflexivity; destruct s; try reflexivity. cbn. destruct (tx v) as [d|e]; [reflexivity|]. cbn. now destruct df. }
  unfold FluxProps.has at 1 2. rewrite E, Dl. clear. generalize (pushed c) as ks. induction ks as [|k ks IH]; [reflexivity|]. cbn [map flat_map]. rewrite flat_map_app, IH. f_equal.
  destruct k as [v| | |]; try reflexivity. cbn. now destruct (tx v).
Qed.
(** What the responder of a wrapper's flux sends. *)
Lemma typed_frames : forall A (tr : transform A) text C St wasm (source : nat -> list (FluxModel.fact A bytes frame C)) code (st : St) threads sched sid,
  (forall s, Forall FluxProps.silent (source s)) -> (forall k t st st' l, code k t st = Some (st', l) -> Forall FluxProps.silent l) -> Forall (Forall FluxProps.silent) threads ->
  let c := FluxModel.frun wasm source code (0 :: 0 :: sched)%nat (FluxModel.finit st ([FluxModel.FSubscribe (typed_emit tr text sid)] :: threads)) in
  FluxModel.fc_stack c = [] ->
  FluxProps.observed (FluxModel.fc_trace c) = flat_map (stream_frame sid) (map (call_map (typed_out tr text)) (pushed c)).
Proof.
  intros A tr text C St wasm source code st threads sched sid Hs Hc Ht c Hk.
  set (im := {| FluxProps.im_next := fun a => [in_frame sid (match typed_out tr text a with inl p => InNext p | inr e => InError e end)]; FluxProps.im_complete := [in_frame sid InComplete];
                FluxProps.im_error := fun x => [in_frame sid (InError x)]; FluxProps.im_finally := fun _ => [] |} : FluxProps.image A bytes frame).
  assert (Ob : FluxProps.observes im (@typed_emit A tr text C sid)).
  { constructor; cbn; [intros f E t v|intros f E t|intros f E t v|discriminate|discriminate]; injection E as <-; exists []; (split; [reflexivity|constructor]). }
  destruct (FluxProps.flux_observed im (typed_emit tr text sid) Ob wasm source code Hs Hc st threads sched Ht) as [(m & M1 & M2) O]. fold c in M1, O. specialize (O Hk).
  pose proof (FluxProps.C51_effective_calls_delivered A bytes frame C St wasm source code st _ (0 :: 0 :: sched)%nat 0%nat m M1) as D. cbv zeta in D. rewrite M2 in D.
  change (FluxFacts.delivered 0 (FluxModel.fc_trace c) = flat_map (FluxFacts.visible (@typed_emit A tr text C sid)) (pushed c)) in D.
  set (g := fun o : FluxModel.fobs A bytes => match o with FluxModel.ONext p => FluxProps.im_next im p | FluxModel.OComplete => [in_frame sid InComplete]
                   | FluxModel.OError x => [in_frame sid (InError x)] | _ => [] end).
  assert (E : FluxProps.expected im (FluxModel.fc_trace c) = flat_map g (FluxFacts.delivered 0 (FluxModel.fc_trace c))).
  { unfold FluxProps.expected, FluxFacts.delivered. generalize (FluxModel.fc_trace c) as t. induction t as [|x t IH]; [reflexivity|]. cbn [flat_map]. rewrite flat_map_app, <- IH. f_equal.
    destruct x; try reflexivity; destruct s; reflexivity. }
  rewrite O, E, D. generalize (pushed c) as ks. clear. induction ks as [|k ks IH]; [reflexivity|]. cbn [map flat_map]. rewrite flat_map_app, IH. f_equal.
  destruct k as [v| | |]; try reflexivity. cbn. destruct (typed_out tr text v); reflexivity.
Qed.

(** ** Calls that go through [Encode] and back through [Decode] *)
(** Specification: [Encode] succeeds for the value and [Decode] gives it back (C25). *)
Definition survives {A} (tr : transform A) (a : A) : Prop := exists bs, t_encode tr a = Ok bs /\ t_decode tr bs = Ok a.
Lemma effective_map : forall V W (f : V -> W + bytes) ks, (forall v, In (FluxModel.KNext v) (FluxFacts.effective ks) -> exists w, f v = inl w) ->
  FluxFacts.effective (map (call_map f) (FluxFacts.effective ks)) = map (call_map f) (FluxFacts.effective ks).
Proof.
  intros V W f ks. induction ks as [|k ks IH]; intros H; [reflexivity|]. cbn [FluxFacts.effective] in *.
  destruct k as [v| | |]; cbn in *; try reflexivity. destruct (H v) as (w & E); [now left|]. rewrite E. cbn. f_equal. apply IH. auto.
Qed.
Lemma told_back : forall A (tr : transform A) text ks, (forall a, In (FluxModel.KNext a) (FluxFacts.effective ks) -> survives tr a) ->
  let sent := map (call_map (typed_out tr text)) (FluxFacts.effective ks) in
  flat_map shown (map (call_map (typed_in tr text)) (FluxFacts.effective (map as_call (flat_map StreamProps.told sent)))) = flat_map shown (FluxFacts.effective ks).
Proof.
  intros A tr text ks. induction ks as [|k ks IH]; intros H; [reflexivity|]. cbn [FluxFacts.effective] in *.
  destruct k as [a| |e|]; cbn [FluxFacts.is_term] in *; try reflexivity.
  destruct (H a) as (bs & E1 & E2); [now left|]. cbn [map flat_map]. cbn zeta in *. assert (Eo : typed_out tr text a = inl {| py_data := bs; py_meta := [] |}) by (unfold typed_out; now rewrite E1).
  assert (Ei : typed_in tr text {| py_data := bs; py_meta := [] |} = inl a) by (unfold typed_in; cbn [py_data]; now rewrite E2).
  cbn [call_map]. rewrite Eo. cbn [StreamProps.told app map as_call FluxFacts.effective FluxFacts.is_term call_map]. rewrite Ei. cbn [flat_map shown app]. f_equal. apply IH. intros b Hb. apply H. now right.
Qed.

(** ** C96 *)
Lemma stub_selects : forall k calls n i h, N.of_nat n < lim -> exported_as k calls n i h ->
  (if len (stub_meta (N.of_nat n)) <? 8 then None else nth_error (exports_of k calls) (N.to_nat (unbe (firstn 4 (stub_meta (N.of_nat n)))))) = Some (i, h).
Proof.
  intros k calls n i h I2 He. assert (M : len (stub_meta (N.of_nat n)) = 8) by (unfold stub_meta; rewrite len_app, len_be; reflexivity). rewrite M. cbn [N.ltb N.compare Pos.compare Pos.compare_cont].
  assert (Q : unbe (firstn 4 (stub_meta (N.of_nat n))) = N.of_nat n).
  { unfold stub_meta. rewrite firstn_app, be_length, Nat.sub_diag, firstn_O, app_nil_r, firstn_all2 by (rewrite be_length; lia). apply unbe_be_small. exact I2. }
  rewrite Q, Nat2N.id. exact (proj1 He).
Qed.
(** The service of a typed stream call is invoked once at most, with the record
    the client was called with; and it is when the caller has requested values
    and everything has arrived. *)
Theorem C96_service_invoked :
  forall R (table : list (rfield R)) zero exported sb behaves, (forall c, len (exported c) < 2 ^ 32) ->
  forall j, jruns exported sb behaves j -> usable j ->
  forall c n i h, exported_as RS (exported (negb c)) n i h ->
  forall r p, travels table zero r -> stub_pay table (peer_import RS (get_table (reg_run (exported (negb c)))) i) r = Ok p -> len (py_data p) < lim ->
  forall o sid input, In (HCalled o RS sid p input) (trace_of c j) ->
    let called := invocations sid (trace_of (negb c) j) in
    decodes table zero (py_data p) (Ok r) /\ (called = [] \/ called = [(RS, h, p)]) /\
    (asks o (trace_of c j) <> [] -> List.length (received (trace_of (negb c) j)) = List.length (sd_out (at_side c j)) -> ep_jobs (sd_ep (at_side (negb c) j)) = [] -> called = [(RS, h, p)]).
Proof.
  intros R table zero exported sb behaves L j Rn U c n i h He r p Ht Hp Lp o sid input Hc called.
  destruct (C94_handler_invoked_once exported sb behaves L j Rn U c o RS sid p input (or_introl eq_refl) Hc) as [A B]. fold called in A, B.
  unfold stub_pay in Hp. destruct (to_bytes (tab_encode table (Some r)) (tab_encode table (Some r))) as [d|e|] eqn:Ed; try discriminate. cbn [bind] in Hp. injection Hp as <-. cbn [py_data] in Lp.
  split; [eapply travels_decodes; eauto|]. cbn [py_meta] in A, B. destruct (op_index _ _ _ _ _ (L (negb c)) He) as (I1 & I2). rewrite I1 in A, B.
  pose proof (stub_selects RS (exported (negb c)) n i h I2 He) as S.
  rewrite S in A, B. rewrite I1. split.
  - destruct A as [A|(i' & h' & E & A)]; [now left|right]. injection E as <- <-. exact A.
  - intros H1 H2 H3. exact (B H1 H2 H3 i h eq_refl).
Qed.
(** From the service's flux to the subscriber of the flux that the client's method
    returned.  The responder is subscribed to the service's flux through
    [Encode]; the subscriber is subscribed through [Decode] to a flux on whose
    sink the calls are made that reach the call.  When all has arrived,
    the subscriber has seen what it would have seen of the service's flux. *)
Theorem C96_typed_stream :
  forall A (tr : transform A) text exported sb behaves, (forall c, len (exported c) < 2 ^ 32) ->
  forall j, jruns exported sb behaves j -> usable j ->
  forall c o k sid p input, k = RS \/ k = RC -> In (HCalled o k sid p input) (trace_of c j) -> subscribed_first o (trace_of c j) ->
  List.length (received (trace_of c j)) = List.length (sd_out (at_side (negb c) j)) ->
  let written := on sid (sd_out (at_side (negb c) j)) in
  (k = RC -> forall x, ~ In (FCancel x) written) ->
  forall C St wasm (source : nat -> list (FluxModel.fact A bytes frame C)) code (st : St) threads sched,
    (forall s, Forall FluxProps.silent (source s)) ->
    (forall k t st st' l, code k t st = Some (st', l) -> Forall FluxProps.silent l) ->
    Forall (Forall FluxProps.silent) threads ->
    let served := FluxModel.frun wasm source code (0 :: 0 :: sched)%nat (FluxModel.finit st ([FluxModel.FSubscribe (typed_emit tr text sid)] :: threads)) in
    FluxModel.fc_stack served = [] -> filter data_frame written = FluxProps.observed (FluxModel.fc_trace served) ->
    (forall a, In (FluxModel.KNext a) (pushed served) -> survives tr a) ->
  forall C' St' wasm' source' code' (st' : St') fn fc fe dr df nr threads' sched',
    FluxProps.quiet_world (C := C') source' code' (typed_in tr text) (Some fn) (Some fc) (Some fe) dr df -> Forall (Forall FluxProps.silent) threads' ->
    let called := FluxProps.mapped_run wasm' source' code' st' (typed_in tr text) (Some fn) (Some fc) (Some fe) dr df nr threads' sched' in
    FluxModel.fc_stack called = [] -> FluxFacts.fcalls 0 (FluxModel.fc_trace called) = map as_call (got o (trace_of c j)) ->
    seen called = flat_map shown (pushed served).
Proof.
  intros A tr text exported sb behaves L j R U c o k sid p input Hk Hc Sf D written Nc C St wasm source code st threads sched A1 A2 A3 served Hs Hw Sv
    C' St' wasm' source' code' st' fn fc fe dr df nr threads' sched' W T called Hcs Hcc.
  pose proof (typed_frames A tr text C St wasm source code st threads sched sid A1 A2 A3 Hs) as F. fold served in F. rewrite <- Hw in F.
  assert (Un : map (call_map (typed_out tr text)) (pushed served) = until_end (map (call_map (typed_out tr text)) (pushed served))).
  { rewrite <- until_effective. symmetry. apply effective_map. intros v Hv. destruct (Sv v Hv) as (bs & E1 & _). exists {| py_data := bs; py_meta := [] |}. unfold typed_out. now rewrite E1. }
  rewrite Un in F. pose proof (carried_stream exported sb behaves L j R U c o k sid p input Hk Hc Sf D Nc _ F) as G. rewrite <- Un in G.
  pose proof (mapped_seen pay A C' St' wasm' source' code' st' (typed_in tr text) fn fc fe dr df nr threads' sched' W T Hcs) as M. fold called in M. rewrite M. unfold pushed at 1. rewrite Hcc, G.
  unfold pushed. now apply told_back.
Qed.
(** The counter of the example: for every number there is a payload, and the
    service is invoked with that number. *)
Theorem C96_counter :
  forall exported sb behaves, (forall c, len (exported c) < 2 ^ 32) ->
  forall j, jruns exported sb behaves j -> usable j ->
  forall c n h, exported_as RS (exported (negb c)) n count_to h ->
  forall x, x < 2 ^ 64 ->
  exists p, stub_pay counter_table (peer_import RS (get_table (reg_run (exported (negb c)))) count_to) x = Ok p /\
  forall o sid input, In (HCalled o RS sid p input) (trace_of c j) -> asks o (trace_of c j) <> [] ->
    List.length (received (trace_of (negb c) j)) = List.length (sd_out (at_side c j)) -> ep_jobs (sd_ep (at_side (negb c) j)) = [] ->
    exists q, invocations sid (trace_of (negb c) j) = [(RS, h, q)] /\ decodes counter_table 0 (py_data q) (Ok x).
Proof.
  intros exported sb behaves L j R U c n h He x Hx. assert (Fx : fits_u 8 x) by exact Hx.
  pose proof (counter_travels x 0 Fx) as T. assert (W : writable counter_table x /\ len (on_wire counter_table x) < lim).
  { assert (S : len (on_wire counter_table x) < lim).
    { unfold on_wire. cbn [counter_table map concat a_field f_name f_put]. rewrite app_nil_r, !len_app. pose proof (uint_cost x) as Z.
      replace (len (mp_map (len counter_table))) with 1 by reflexivity. replace (len (mp_str_len (len name_to))) with 1 by reflexivity. replace (len name_to) with 2 by reflexivity. unfold bytes in *. lia. }
    split; [|exact S]. split; [repeat constructor; exact Fx|]. now rewrite calls_on_wire. }
  destruct W as (W & S). pose proof (encode_table _ counter_table x W) as E.
  exists {| py_data := on_wire counter_table x; py_meta := stub_meta (peer_import RS (get_table (reg_run (exported (negb c)))) count_to) |}.
  assert (Hp : stub_pay counter_table (peer_import RS (get_table (reg_run (exported (negb c)))) count_to) x =
    Ok {| py_data := on_wire counter_table x; py_meta := stub_meta (peer_import RS (get_table (reg_run (exported (negb c)))) count_to) |}) by (unfold stub_pay; now rewrite E).
  split; [exact Hp|]. intros o sid input Hc H1 H2 H3.
  destruct (C96_service_invoked N counter_table 0 exported sb behaves L j R U c n count_to h He x _ T Hp S o sid input Hc) as (Q1 & _ & Q2).
  eexists. split; [exact (Q2 H1 H2 H3)|exact Q1].
Qed.
(** Every string of less than 4 GB survives. *)
Theorem C96_strings_survive : forall s, len s + 5 < lim -> survives tr_string s.
Proof. exact string_back. Qed.
(** *** A run: the client counts to 2; the service sends "1" and "2". *)
Definition C96_exports (c : bool) : list reg_call := if c then [] else [CExport RC count_to 7; CExport RS ([97], [98]) 4; CExport RS count_to 5].
Definition C96_behaves (c : bool) (h : N) (p : pay) (r : pay + bytes) : Prop := False.
Definition C96_do (c : bool) (x : hop) (j : joint) : joint :=
  put_side c (advance x (match hstep (reg_run (C96_exports c)) (fun _ => true) c x (sd_ep (at_side c j)) with Ok e => e | _ => ep_init end) (at_side c j)) j.
Definition C96_get (c : bool) (n : nat) (j : joint) : joint := C96_do c (XFrame (C94_arrives (nth n (sd_out (at_side (negb c) j)) (FCancel {| cn_stream := 0 |})))) j.
Definition C96_run (j : joint) : Prop := jruns C96_exports (fun _ _ => true) C96_behaves j.
Lemma C96_op : forall c x j, (forall f, x <> XFrame f) ->
  hstep (reg_run (C96_exports c)) (fun _ => true) c x (sd_ep (at_side c j)) =
    Ok (match hstep (reg_run (C96_exports c)) (fun _ => true) c x (sd_ep (at_side c j)) with Ok e => e | _ => ep_init end) ->
  C96_run j -> C96_run (C96_do c x j).
Proof. intros c x j Hx H R. eapply jr_step; [exact R|]. unfold C96_do. apply JOp; auto. Qed.
Lemma C96_frame : forall c n j, let g := C94_arrives (nth n (sd_out (at_side (negb c) j)) (FCancel {| cn_stream := 0 |})) in
  hstep (reg_run (C96_exports c)) (fun _ => true) c (XFrame g) (sd_ep (at_side c j)) =
    Ok (match hstep (reg_run (C96_exports c)) (fun _ => true) c (XFrame g) (sd_ep (at_side c j)) with Ok e => e | _ => ep_init end) ->
  C64_writable (sd_out (at_side (negb c) j)) = true ->
  read_frames_all 9 [] [Chunk (firstn (List.length (concat (map (@concat N) (C64_writes (firstn (S n) (sd_out (at_side (negb c) j))))))) (concat (map (@concat N) (C64_writes (sd_out (at_side (negb c) j))))))] =
    Some (received (trace_of c j) ++ [g], ConnEof) ->
  C96_run j -> C96_run (C96_get c n j).
Proof.
  intros c n j g H W V R. eapply jr_step; [exact R|]. unfold C96_get, C96_do. apply JFrame; [|exact H].
  apply (C64_reads (List.length (concat (map (@concat N) (C64_writes (firstn (S n) (sd_out (at_side (negb c) j)))))))); [exact W|exact V].
Qed.
Lemma C96_emit : forall k h p f j, In (HInvoke k (frame_stream f) h p) (ep_trace (sd_ep (at_side false j))) -> k = RS \/ k = RC ->
  match f with FPayload _ | FError _ => True | _ => False end -> C96_run j -> C96_run (C94_put f j).
Proof. intros k h p f j H1 H2 H3 R. eapply jr_step; [exact R|]. unfold C94_put. eapply JEmit; eauto. Qed.
Definition C96_pay : pay := {| py_data := [129; 162; 116; 111; 2]; py_meta := [0; 0; 0; 1; 0; 0; 0; 0] |}.
Definition C96_val (x : N) : pay := {| py_data := [161; x]; py_meta := [] |}.
Definition C96_1 := C96_do true (XCall RS C96_pay false) joint_init.
Definition C96_2 := C96_do true (XSubscribe 0) C96_1.
Definition C96_3 := C96_do true (XRequest 0 5) C96_2.
Definition C96_4 := C96_get false 0 C96_3.
Definition C96_5 := C96_do false (XJob 0) C96_4.
Definition C96_6 := C94_put (in_frame 1 (InNext (C96_val 49))) C96_5.
Definition C96_7 := C94_put (in_frame 1 (InNext (C96_val 50))) C96_6.
Definition C96_8 := C94_put (in_frame 1 InComplete) C96_7.
Definition C96_9 := C96_get true 0 C96_8.
Definition C96_10 := C96_get true 1 C96_9.
Definition C96_11 := C96_get true 2 C96_10.
Definition C96_text (s : string) : bytes := [].
Definition C96_served : FluxModel.fconf bytes bytes frame Empty_set unit :=
  FluxModel.frun false (fun s => [FluxModel.FCall s (FluxModel.KNext [49]); FluxModel.FCall s (FluxModel.KNext [50]); FluxModel.FCall s FluxModel.KComplete; FluxModel.FCall s (FluxModel.KNext [51])])
    (fun _ _ _ => None) (0 :: 0 :: repeat 0%nat 30)%nat (FluxModel.finit tt [[FluxModel.FSubscribe (typed_emit tr_string C96_text 1)]]).
(** A subscriber of a processor through [Decode], to which [ks] are pushed. *)
Definition C96_taken (ks : list (FluxModel.fcall pay bytes)) : FluxModel.fconf pay bytes (FluxModel.fobs bytes bytes) (FluxModel.fpcode pay bytes) (option nat * option N) :=
  FluxProps.mapped_run false FluxModel.fproc_source (FluxModel.fproc_code (fun _ => (None, None))) (None, None) (typed_in tr_string C96_text) (Some (fun _ _ => [])) (Some (fun _ => [])) (Some (fun _ _ => [])) None None false
    [map (fun k => FluxModel.FDo (FluxModel.FPCall k)) ks] (repeat 0%nat 40).
Lemma C96_world : forall D (tx : pay -> D + bytes), FluxProps.quiet_world FluxModel.fproc_source (FluxModel.fproc_code (V := pay) (E := bytes) (O := FluxModel.fobs D bytes) (fun _ => (None, None)))
  tx (Some (fun _ _ => [])) (Some (fun _ => [])) (Some (fun _ _ => [])) None None.
Proof.
  intros D tx. constructor; try discriminate; try (intros f H; injection H as <-; constructor); try (intros f H; injection H as <-; reflexivity).
  - intros s. repeat constructor.
  - intros k t [sink sub] st' l H. destruct k; cbn in H.
    + injection H as _ <-. destruct sub; [|constructor]. constructor; [|constructor]. constructor; intros ? HH; discriminate HH.
    + injection H as _ <-. destruct sink; repeat constructor.
    + destruct sink; injection H as _ <-; constructor; [|constructor]. constructor; intros ? HH; discriminate HH.
Qed.
Example C96_example :
  C96_run C96_11 /\ usable C96_11 /\ exported_as RS (C96_exports false) 1 count_to 5 /\
  stub_pay counter_table (peer_import RS (get_table (reg_run (C96_exports false))) count_to) 2 = Ok C96_pay /\
  In (HCalled 0 RS 1 C96_pay false) (trace_of true C96_11) /\ subscribed_first 0 (trace_of true C96_11) /\ asks 0 (trace_of true C96_11) = [5%Z] /\
  List.length (received (trace_of true C96_11)) = List.length (sd_out (at_side false C96_11)) /\
  List.length (received (trace_of false C96_11)) = List.length (sd_out (at_side true C96_11)) /\ ep_jobs (sd_ep (at_side false C96_11)) = [] /\
  invocations 1 (trace_of false C96_11) = [(RS, 5, C96_pay)] /\
  FluxModel.fc_stack C96_served = [] /\ filter data_frame (on 1 (sd_out (at_side false C96_11))) = FluxProps.observed (FluxModel.fc_trace C96_served) /\
  pushed C96_served = [FluxModel.KNext [49]; FluxModel.KNext [50]; FluxModel.KComplete] /\
  (let called := C96_taken (map as_call (got 0 (trace_of true C96_11))) in
   FluxModel.fc_stack called = [] /\ FluxFacts.fcalls 0 (FluxModel.fc_trace called) = map as_call (got 0 (trace_of true C96_11)) /\
   seen called = [FluxModel.ONext [49]; FluxModel.ONext [50]; FluxModel.OComplete]).
Proof.
  split.
  { unfold C96_11. apply C96_frame; [vm_compute; reflexivity..|].
    unfold C96_10. apply C96_frame; [vm_compute; reflexivity..|].
    unfold C96_9. apply C96_frame; [vm_compute; reflexivity..|].
    unfold C96_8. apply (C96_emit RS 5 C96_pay); [vm_compute; tauto|now left|exact I|].
    unfold C96_7. apply (C96_emit RS 5 C96_pay); [vm_compute; tauto|now left|exact I|].
    unfold C96_6. apply (C96_emit RS 5 C96_pay); [vm_compute; tauto|now left|exact I|].
    unfold C96_5. apply C96_op; [discriminate|vm_compute; reflexivity|].
    unfold C96_4. apply C96_frame; [vm_compute; reflexivity..|].
    unfold C96_3. apply C96_op; [discriminate|vm_compute; reflexivity|].
    unfold C96_2. apply C96_op; [discriminate|vm_compute; reflexivity|].
    unfold C96_1. apply C96_op; [discriminate|vm_compute; reflexivity|]. constructor. }
  split; [C95_small C96_11|]. split.
  { split; [reflexivity|]. intros m i h' H E. subst i. destruct m as [|m]; [vm_compute in H; discriminate H|lia]. }
  split; [vm_compute; reflexivity|]. split; [vm_compute; tauto|]. split.
  { intros t1 n t2 E. assert (Z : trace_of true C96_11 = ltac:(let t := eval vm_compute in (trace_of true C96_11) in exact t)) by (vm_compute; reflexivity). rewrite Z in E. clear Z.
    repeat (destruct t1 as [|x t1]; [discriminate E || (cbn; tauto)|]; injection E as <- E; cbn [In]); try (destruct t1; discriminate E); cbn; tauto. }
  vm_compute. repeat split; auto; discriminate.
Qed.
Print Assumptions C96_service_invoked.
Print Assumptions C96_typed_stream.
Print Assumptions C96_counter.
Print Assumptions C96_strings_survive.

(** ** C97 *)
Lemma input_seen : forall V C St (c : FluxModel.fconf V bytes (FluxModel.fobs pay bytes) C St), flat_map input_of (FluxProps.observed (FluxModel.fc_trace c)) = flat_map input_of (seen c).
Proof.
  intros V C St c. unfold seen. generalize (FluxProps.observed (FluxModel.fc_trace c)) as l. induction l as [|x l IH]; [reflexivity|]. cbn [flat_map filter]. rewrite IH. now destruct x.
Qed.
Lemma input_heard : forall ks, flat_map heard (flat_map input_of (flat_map shown ks)) = flat_map StreamProps.told ks.
Proof. induction ks as [|k ks IH]; [reflexivity|]. cbn [flat_map]. rewrite !flat_map_app, IH. now destruct k. Qed.
Lemma input_ends : forall ks, ends_once (flat_map input_of (flat_map shown (FluxFacts.effective ks))).
Proof. induction ks as [|k ks IH]; [exact I|]. destruct k; cbn; auto. Qed.
(** The service of a typed channel call is invoked once at most, and it is when the
    caller has requested values and everything has arrived. *)
Theorem C97_service_invoked :
  forall exported sb behaves, (forall c, len (exported c) < 2 ^ 32) ->
  forall j, jruns exported sb behaves j -> usable j ->
  forall c n i h, exported_as RC (exported (negb c)) n i h ->
  let p := channel_pay (peer_import RC (get_table (reg_run (exported (negb c)))) i) in
  forall o sid input, In (HCalled o RC sid p input) (trace_of c j) ->
    let called := invocations sid (trace_of (negb c) j) in
    (called = [] \/ called = [(RC, h, p)]) /\
    (asks o (trace_of c j) <> [] -> List.length (received (trace_of (negb c) j)) = List.length (sd_out (at_side c j)) -> ep_jobs (sd_ep (at_side (negb c) j)) = [] -> called = [(RC, h, p)]).
Proof.
  intros exported sb behaves L j Rn U c n i h He p o sid input Hc called.
  destruct (C94_handler_invoked_once exported sb behaves L j Rn U c o RC sid p input (or_intror eq_refl) Hc) as [A B]. fold called in A, B.
  destruct (op_index _ _ _ _ _ (L (negb c)) He) as (I1 & I2). assert (Pm : py_meta p = stub_meta (N.of_nat n)) by (unfold p, channel_pay; cbn [py_meta]; now rewrite I1). rewrite Pm, (stub_selects RC _ n i h I2 He) in A, B. split.
  - destruct A as [A|(i' & h' & E & A)]; [now left|right]. injection E as <- <-. exact A.
  - intros H1 H2 H3. exact (B H1 H2 H3 i h eq_refl).
Qed.
(** From the caller's input to the input of the service.  The proxy is subscribed
    to the caller's input through [Encode] and passes on what it is shown; the
    service is subscribed through [Decode] to a flux on whose sink the calls
    are made that reach the handler's input.  If the caller's input waits for
    demand, the call is not cancelled and all has arrived, the service has
    seen what it would have seen of the caller's input. *)
Theorem C97_typed_input :
  forall A (tr : transform A) text exported sb behaves, (forall c, len (exported c) < 2 ^ 32) ->
  forall j, jruns exported sb behaves j -> usable j ->
  forall c o sid p, In (HCalled o RC sid p true) (trace_of c j) -> driven o (trace_of c j) -> (forall x, ~ In (FCancel x) (on sid (sd_out (at_side c j)))) ->
  forall C St wasm source code (st : St) fn fc fe dr df nr threads sched,
    FluxProps.quiet_world (C := C) source code (typed_out tr text) (Some fn) (Some fc) (Some fe) dr df -> Forall (Forall FluxProps.silent) threads ->
    let given := FluxProps.mapped_run wasm source code st (typed_out tr text) (Some fn) (Some fc) (Some fe) dr df nr threads sched in
    FluxModel.fc_stack given = [] -> feds o (trace_of c j) = flat_map input_of (FluxProps.observed (FluxModel.fc_trace given)) ->
    (forall a, In (FluxModel.KNext a) (pushed given) -> survives tr a) ->
  forall t1 h q t2, trace_of (negb c) j = t1 ++ HInvoke RC sid h q :: t2 -> List.length (received (trace_of (negb c) j)) = List.length (sd_out (at_side c j)) ->
  exists o' n t3, t2 = HDemand o' n :: t3 /\
  forall C' St' wasm' source' code' (st' : St') fn' fc' fe' dr' df' nr' threads' sched',
    FluxProps.quiet_world (C := C') source' code' (typed_in tr text) (Some fn') (Some fc') (Some fe') dr' df' -> Forall (Forall FluxProps.silent) threads' ->
    let taken := FluxProps.mapped_run wasm' source' code' st' (typed_in tr text) (Some fn') (Some fc') (Some fe') dr' df' nr' threads' sched' in
    FluxModel.fc_stack taken = [] -> FluxFacts.fcalls 0 (FluxModel.fc_trace taken) = map as_call (got o' (trace_of (negb c) j)) ->
    seen taken = flat_map shown (pushed given).
Proof.
  intros A tr text exported sb behaves L j R U c o sid p Hc Dr Nc C St wasm source code st fn fc fe dr df nr threads sched W T given Hg Hf Sv t1 h q t2 E D.
  pose proof (mapped_seen A pay C St wasm source code st (typed_out tr text) fn fc fe dr df nr threads sched W T Hg) as M. fold given in M. rewrite input_seen, M in Hf.
  assert (Ef : map (call_map (typed_out tr text)) (pushed given) = FluxFacts.effective (map (call_map (typed_out tr text)) (pushed given))).
  { symmetry. apply effective_map. intros v Hv. destruct (Sv v Hv) as (bs & E1 & _). exists {| py_data := bs; py_meta := [] |}. unfold typed_out. now rewrite E1. }
  assert (En : ends_once (feds o (trace_of c j))) by (rewrite Hf, Ef; apply input_ends).
  destruct (C95_input_end_to_end exported sb behaves L j R U c o sid p Hc Dr En Nc t1 h q t2 E) as (o' & n & t3 & E3 & _ & G). specialize (G D). rewrite Hf, input_heard in G.
  exists o', n, t3. split; [exact E3|].
  intros C' St' wasm' source' code' st' fn' fc' fe' dr' df' nr' threads' sched' W' T' taken Ht Hk.
  pose proof (mapped_seen pay A C' St' wasm' source' code' st' (typed_in tr text) fn' fc' fe' dr' df' nr' threads' sched' W' T' Ht) as M'. fold taken in M'. rewrite M'. unfold pushed at 1. rewrite Hk, G.
  unfold pushed. now apply told_back.
Qed.
(** *** A run: the client opens the channel with an input that emits "a" and "b";
    the service asks for two values and sends "A" for the first. *)
Definition C97_1 := C96_do true (XCall RC (channel_pay 0) true) joint_init.
Definition C97_2 := C96_do true (XSubscribe 0) C97_1.
Definition C97_3 := C96_do true (XRequest 0 3) C97_2.
Definition C97_4 := C96_get false 0 C97_3.
Definition C97_5 := C96_do false (XJob 0) C97_4.
Definition C97_6 := C96_do false (XListen 0) C97_5.
Definition C97_7 := C96_do false (XRequest 0 2) C97_6.
Definition C97_8 := C96_get true 0 C97_7.
Definition C97_9 := C96_do true (XJob 0) C97_8.
Definition C97_10 := C96_do true (XIn 0 (InNext (C96_val 97))) C97_9.
Definition C97_11 := C96_get false 1 C97_10.
Definition C97_12 := C94_put (in_frame 1 (InNext (C96_val 65))) C97_11.
Definition C97_13 := C96_do true (XIn 0 (InNext (C96_val 98))) C97_12.
Definition C97_14 := C96_do true (XIn 0 InComplete) C97_13.
Definition C97_15 := C96_get false 2 C97_14.
Definition C97_16 := C96_get false 3 C97_15.
Definition C97_17 := C96_get true 1 C97_16.
Definition C97_given : FluxModel.fconf bytes bytes (FluxModel.fobs pay bytes) Empty_set unit :=
  FluxProps.mapped_run false (fun s => [FluxModel.FOnSubscribe s (Some (fun _ n => [FluxModel.FCall s (FluxModel.KNext [97]); FluxModel.FCall s (FluxModel.KNext [98]); FluxModel.FCall s FluxModel.KComplete])) None])
    (fun _ _ _ => None) tt (typed_out tr_string C96_text) (Some (fun _ _ => [])) (Some (fun _ => [])) (Some (fun _ _ => [])) None None true [[FluxModel.FRequest 0 2]] (repeat 0%nat 40).
Definition C97_before : list hevent := Eval vm_compute in firstn 1 (trace_of false C97_17).
Definition C97_since : list hevent := Eval vm_compute in skipn 2 (trace_of false C97_17).
Example C97_example :
  C96_run C97_17 /\ usable C97_17 /\ exported_as RC (C96_exports false) 0 count_to 7 /\
  channel_pay (peer_import RC (get_table (reg_run (C96_exports false))) count_to) = channel_pay 0 /\
  In (HCalled 0 RC 1 (channel_pay 0) true) (trace_of true C97_17) /\ driven 0 (trace_of true C97_17) /\
  (forall x, ~ In (FCancel x) (on 1 (sd_out (at_side true C97_17)))) /\ trace_of false C97_17 = C97_before ++ HInvoke RC 1 7 (channel_pay 0) :: C97_since /\
  List.length (received (trace_of false C97_17)) = List.length (sd_out (at_side true C97_17)) /\
  FluxModel.fc_stack C97_given = [] /\ feds 0 (trace_of true C97_17) = flat_map input_of (FluxProps.observed (FluxModel.fc_trace C97_given)) /\
  pushed C97_given = [FluxModel.KNext [97]; FluxModel.KNext [98]; FluxModel.KComplete] /\ hd_error C97_since = Some (HDemand 0 3) /\
  (let taken := C96_taken (map as_call (got 0 (trace_of false C97_17))) in
   FluxModel.fc_stack taken = [] /\ FluxFacts.fcalls 0 (FluxModel.fc_trace taken) = map as_call (got 0 (trace_of false C97_17)) /\
   seen taken = [FluxModel.ONext [97]; FluxModel.ONext [98]; FluxModel.OComplete]) /\
  got 0 (trace_of true C97_17) = [SNext (C96_val 65)].
Proof.
  split.
  { unfold C97_17. apply C96_frame; [vm_compute; reflexivity..|].
    unfold C97_16. apply C96_frame; [vm_compute; reflexivity..|].
    unfold C97_15. apply C96_frame; [vm_compute; reflexivity..|].
    unfold C97_14. apply C96_op; [discriminate|vm_compute; reflexivity|].
    unfold C97_13. apply C96_op; [discriminate|vm_compute; reflexivity|].
    unfold C97_12. apply (C96_emit RC 7 (channel_pay 0)); [vm_compute; tauto|now right|exact I|].
    unfold C97_11. apply C96_frame; [vm_compute; reflexivity..|].
    unfold C97_10. apply C96_op; [discriminate|vm_compute; reflexivity|].
    unfold C97_9. apply C96_op; [discriminate|vm_compute; reflexivity|].
    unfold C97_8. apply C96_frame; [vm_compute; reflexivity..|].
    unfold C97_7. apply C96_op; [discriminate|vm_compute; reflexivity|].
    unfold C97_6. apply C96_op; [discriminate|vm_compute; reflexivity|].
    unfold C97_5. apply C96_op; [discriminate|vm_compute; reflexivity|].
    unfold C97_4. apply C96_frame; [vm_compute; reflexivity..|].
    unfold C97_3. apply C96_op; [discriminate|vm_compute; reflexivity|].
    unfold C97_2. apply C96_op; [discriminate|vm_compute; reflexivity|].
    unfold C97_1. apply C96_op; [discriminate|vm_compute; reflexivity|]. constructor. }
  split; [C95_small C97_17|]. split.
  { split; [reflexivity|]. intros m i h' H E. lia. }
  split; [vm_compute; reflexivity|]. split; [vm_compute; tauto|]. split.
  { assert (Z : trace_of true C97_17 = ltac:(let t := eval vm_compute in (trace_of true C97_17) in exact t)) by (vm_compute; reflexivity). rewrite Z. clear Z. intros t1 x t2 E.
    repeat (destruct t1 as [|y t1]; [discriminate E || (exists 2%Z; cbn; tauto)|]; injection E as <- E; cbn [In]); try (destruct t1; discriminate E); exists 2%Z; cbn; tauto. }
  split; [intros x; vm_compute; intuition discriminate|]. vm_compute. repeat split; auto; discriminate.
Qed.
Print Assumptions C97_service_invoked.
Print Assumptions C97_typed_input.
