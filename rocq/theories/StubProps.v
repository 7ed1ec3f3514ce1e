(** C93: a typed remote call returns what the service returned. *)
From Verif Require Import Base BaseFacts FramesModel WasmModel MsgpackModel MsgpackSpec MsgpackProofs MsgpackValues MsgpackAny MsgpackProps RecordModel RecordProofs InvokeModel InvokeProofs InvokeProps TransformModel TransformProps
  TableModel TableProps LookupModel TcpModel HandlerModel HandlerFacts HandlerCallProps JointModel JointFacts JointProps StubModel.
From Verif Require MonoModel MonoFacts MonoProps.
Local Ltac Zify.zify_post_hook ::= Z.div_mod_to_equations.
Local Notation lim := 4294967296 (only parsing).

(** ** A mapped subscriber behind the mono of a remote call *)
Section Mapped.
Import MonoModel MonoFacts MonoProps.
Context {V E D : Type}.
Variables (tx : V -> D + E) (l : list (V + E)).
Variables (a : option (list (dev V E D) -> D -> list (dact V E D (pcode V E))))
          (b : option (list (dev V E D) -> E -> list (dact V E D (pcode V E))))
          (f : option (list (dev V E D) -> signal -> list (dact V E D (pcode V E)))).
Hypothesis a_silent : forall fn, a = Some fn -> forall t v, Forall silent (fn t v).
Hypothesis b_silent : forall fn, b = Some fn -> forall t v, Forall silent (fn t v).
Hypothesis f_silent : forall fn, f = Some fn -> forall t v, Forall silent (fn t v).
Definition first_conf : mconf V E (dobs D E) (pcode V E) (pstore V E) := minit pstore0 [ASubscribe (map_handlers tx a b f) :: results l].
Lemma source_quiet : forall s, Forall (@silent V E (dobs D E) (pcode V E)) (proc_source s).
Proof. intros s. repeat constructor. Qed.
Lemma code_quiet : forall (k : pcode V E) t st st' x, proc_code k t st = Some (st', x) -> Forall (@silent V E (dobs D E) (pcode V E)) x.
Proof.
  intros k t st st' x H. destruct k as [s|r]; cbn [proc_code] in H.
  - destruct (ps_success st), (ps_err st); injection H as _ <-; repeat constructor.
  - destruct (ps_sink st); injection H as _ <-; repeat constructor.
Qed.
Lemma results_quiet : Forall (@silent V E (dobs D E) (pcode V E)) (results l).
Proof. unfold results. induction l; repeat constructor; auto. Qed.
Lemma first_two : forall i j, nth_error (mc_threads first_conf) i <> None -> dinv tx a b f (mrun proc_source proc_code [i; j] first_conf).
Proof.
  intros [|i] j H; [|destruct i; now destruct H]. clear H.
  cbn [mrun fold_left]. unfold mstep at 2. cbn [first_conf minit mc_panicked mc_stack mc_threads nth_error firstn skipn app].
  unfold mstep. cbn [mc_panicked mc_stack acts map do_item]. fold (@acts V E (dobs D E) (pcode V E) (results l)). unfold dinv. cbn [first_conf minit mc_subs mc_callbacks mc_threads mc_stack mc_trace app List.length].
  assert (K : Forall item_silent (acts (@proc_source V E (dobs D E) 0) ++ acts (results l))) by (apply Forall_app; split; [apply item_acts; apply source_quiet|apply item_acts; apply results_quiet]).
  destruct (silent_ok _ K) as [K1 K2]. repeat split; auto.
  - eexists. split; reflexivity.
  - intros s m Hm. cbn in Hm. now rewrite nth_nil in Hm.
Qed.
Lemma mapped_observed : forall sched,
  let m := mrun proc_source proc_code sched first_conf in
  mc_stack m = [] -> mc_threads m = [] -> observed (mc_trace m) = flat_map (mapped (has a) (has b) tx) (outcomes 0 (mc_trace m)).
Proof.
  intros sched m Hs Ht. assert (I : dinv tx a b f m).
  { unfold m in *. clear m. induction sched as [|i sched IH]; [discriminate|]. destruct (nth_error (mc_threads first_conf) i) eqn:En.
    - destruct sched as [|j sched]; [|change (i :: j :: sched) with ([i; j] ++ sched); unfold mrun; rewrite fold_left_app; apply dinv_run; auto using source_quiet; [apply code_quiet|apply first_two; congruence]].
      destruct i as [|i]; [|cbn in En; destruct i; discriminate]. discriminate.
    - assert (Z : mstep proc_source proc_code first_conf i = first_conf) by (unfold mstep; cbn [first_conf minit mc_panicked mc_stack]; cbn [first_conf minit mc_threads] in *; now rewrite En).
      cbn [mrun fold_left] in *. rewrite Z in *. now apply IH. }
  destruct I as (_ & _ & _ & _ & _ & O). rewrite Hs in O. cbn [pending_obs] in O. now rewrite app_nil_r in O.
Qed.
End Mapped.

(** ** The two sides of a typed call *)
Lemma decodes_one : forall R (table : list (rfield R)) zero d x y, decodes table zero d x -> decodes table zero d y -> x = y.
Proof.
  intros R table zero d x y (f & F) (g & G). destruct (F (Nat.max f g)) as (r1 & E1); [lia|]. destruct (G (Nat.max f g)) as (r2 & E2); [lia|]. congruence.
Qed.
Lemma travels_decodes : forall R (table : list (rfield R)) zero r bs, travels table zero r ->
  to_bytes (tab_encode table (Some r)) (tab_encode table (Some r)) = Ok bs -> len bs < lim -> decodes table zero bs (Ok r).
Proof.
  intros R table zero r bs (bs' & E & f0 & F) E' L. assert (bs' = bs) by congruence. subst bs'. exists f0. intros f Hf. specialize (F f Hf [] []). cbn [app] in F. rewrite app_nil_r in F.
  specialize (F L). eexists. exact F.
Qed.
Lemma wrapped_outcome : forall R A (table : list (rfield R)) zero (tr : transform A) text svc p out r, decodes table zero (py_data p) (Ok r) ->
  wrapped table zero tr text svc p out -> exists o, svc r o /\ encoded tr text o out.
Proof.
  intros R A table zero tr text svc p out r Hr [(r' & o & H1 & H2 & H3)|(e & H1 & _)]; pose proof (decodes_one _ _ _ _ _ _ Hr H1) as E; [|discriminate].
  injection E as <-. eauto.
Qed.

(** Specification: what a caller may be told about a call of a service. *)
Definition told {A} (svc : A + bytes -> Prop) (back : pay -> res A) (k : scall) : Prop :=
  (exists v a, k = SNext v /\ back v = Ok a /\ svc (inl a)) \/ (exists e, k = SError e /\ svc (inr e)).
(** Operation [i] is exported [n]-th among the operations of kind [k] of
    [calls], first under its name, with handler [h]. *)
Definition exported_as (k : kind) (calls : list reg_call) (n : nat) (i : info) (h : N) : Prop :=
  nth_error (exports_of k calls) n = Some (i, h) /\ forall m j h', nth_error (exports_of k calls) m = Some (j, h') -> j = i -> (n <= m)%nat.
Lemma op_index : forall k calls n i h, len calls < 2 ^ 32 -> exported_as k calls n i h ->
  peer_import k (get_table (reg_run calls)) i = N.of_nat n /\ N.of_nat n < lim.
Proof.
  intros k calls n i h Hc (He & Hm). change (2 ^ 32) with lim in Hc. split.
  - rewrite peer_find_table by exact Hc.
    assert (Hin : In i (map fst (exports_of k calls))).
    { apply in_map_iff. exists (i, h). split; [reflexivity|]. eapply nth_error_In; eauto. }
    replace (existsb (fun x => info_eqb x i) (map fst (exports_of k calls))) with true.
    2:{ symmetry. apply existsb_exists. exists i. split; [exact Hin|apply info_eqb_refl]. }
    destruct (peer_find_convert (map fst (exports_of k calls)) 0 (kind_code k) i) as (m & -> & Hm1 & Hm2); auto.
    { rewrite len_map. pose proof (len_exports k calls). lia. }
    assert (m = n); [|subst; lia].
    rewrite nth_error_map in Hm1. destruct (nth_error (exports_of k calls) m) as [[j h']|] eqn:Em; [|discriminate].
    cbn in Hm1. injection Hm1 as ->. specialize (Hm m i h' Em eq_refl).
    specialize (Hm2 n). rewrite nth_error_map, He in Hm2. specialize (Hm2 eq_refl). lia.
  - assert (n < List.length (exports_of k calls))%nat by (apply nth_error_Some; congruence). pose proof (len_exports k calls) as L. unfold len in L, Hc. lia.
Qed.
(** What the peer may answer to a payload that selects the operation. *)
Lemma selected_outcome : forall calls (behaves : N -> pay -> pay + bytes -> Prop) n i h p k,
  len calls < 2 ^ 32 -> exported_as RR calls n i h -> py_meta p = stub_meta (peer_import RR (get_table (reg_run calls)) i) -> outcome calls behaves p k ->
  exists q, py_data q = py_data p /\ ((exists v, behaves h q (inl v) /\ k = SNext v) \/ exists e, behaves h q (inr e) /\ k = SError e).
Proof.
  intros calls behaves n i h p k Hc He Hp O. destruct (op_index _ _ _ _ _ Hc He) as (I1 & I2). rewrite I1 in Hp. unfold outcome in O. rewrite Hp in O.
  assert (M : len (stub_meta (N.of_nat n)) = 8) by (unfold stub_meta; rewrite len_app, len_be; reflexivity). rewrite M in O. cbn [N.ltb N.compare Pos.compare Pos.compare_cont] in O.
  assert (U : unbe (firstn 4 (stub_meta (N.of_nat n))) = N.of_nat n).
  { unfold stub_meta. rewrite firstn_app, be_length, Nat.sub_diag, firstn_O, app_nil_r, firstn_all2 by (rewrite be_length; lia). apply unbe_be_small. exact I2. }
  rewrite U, Nat2N.id, (proj1 He) in O. eexists. split; [|exact O]. reflexivity.
Qed.
(** What the peer may answer to the payload of a typed call. *)
Lemma arrived_outcome : forall R A (table : list (rfield R)) zero (tr : transform A) text svc calls (behaves : N -> pay -> pay + bytes -> Prop) n i h r p k,
  len calls < 2 ^ 32 -> exported_as RR calls n i h -> (forall q out, behaves h q out -> wrapped table zero tr text svc q out) ->
  (forall a, svc r (inl a) -> exists bs, t_encode tr a = Ok bs /\ t_decode tr bs = Ok a) ->
  py_meta p = stub_meta (peer_import RR (get_table (reg_run calls)) i) -> decodes table zero (py_data p) (Ok r) ->
  outcome calls behaves p k -> told (svc r) (stub_result tr) k.
Proof.
  intros R A table zero tr text svc calls behaves n i h r p k Hc He Hw Hf Hp Dr O.
  destruct (selected_outcome calls behaves n i h p k Hc He Hp O) as (q & Eq & O'). rewrite <- Eq in Dr.
  destruct O' as [(v & B & ->)|(e & B & ->)]; apply Hw in B; (eapply wrapped_outcome in B; [|exact Dr]); destruct B as (o & S & En).
  - left. destruct o as [a|e]; cbn [encoded] in En; [|discriminate]. destruct (Hf _ S) as (bs & E1 & E2). rewrite E1 in En. injection En as ->.
    exists {| py_data := bs; py_meta := [] |}, a. auto.
  - right. exists e. split; [reflexivity|]. destruct o as [a|e']; cbn [encoded] in En; [|now injection En as <-].
    destruct (Hf _ S) as (bs & E1 & _). rewrite E1 in En. discriminate.
Qed.
Lemma stub_outcome : forall R A (table : list (rfield R)) zero (tr : transform A) text svc calls (behaves : N -> pay -> pay + bytes -> Prop) n i h r p k,
  len calls < 2 ^ 32 -> exported_as RR calls n i h -> (forall q out, behaves h q out -> wrapped table zero tr text svc q out) ->
  travels table zero r -> (forall a, svc r (inl a) -> exists bs, t_encode tr a = Ok bs /\ t_decode tr bs = Ok a) ->
  stub_pay table (peer_import RR (get_table (reg_run calls)) i) r = Ok p -> len (py_data p) < lim ->
  outcome calls behaves p k -> told (svc r) (stub_result tr) k.
Proof.
  intros R A table zero tr text svc calls behaves n i h r p k Hc He Hw Ht Hf Hp L O. unfold stub_pay in Hp.
  destruct (to_bytes (tab_encode table (Some r)) (tab_encode table (Some r))) as [d|e|] eqn:Ed; try discriminate. cbn [bind] in Hp. injection Hp as <-. cbn [py_data] in L.
  refine (arrived_outcome R A table zero tr text svc calls behaves n i h r _ k Hc He Hw Hf _ _ O); [reflexivity|]. eapply travels_decodes; eauto.
Qed.

(** Whatever is passed to the mono of a typed call is an outcome of the service
    for exactly the record of the call. *)
Theorem C93_only_service_outcomes :
  forall R A (table : list (rfield R)) zero (tr : transform A) text svc exported sb behaves, (forall c, len (exported c) < 2 ^ 32) ->
  forall j, jruns exported sb behaves j -> usable j ->
  forall c n i h, exported_as RR (exported (negb c)) n i h -> (forall q out, behaves (negb c) h q out -> wrapped table zero tr text svc q out) ->
  forall r p, travels table zero r -> (forall a, svc r (inl a) -> exists bs, t_encode tr a = Ok bs /\ t_decode tr bs = Ok a) ->
  stub_pay table (peer_import RR (get_table (reg_run (exported (negb c)))) i) r = Ok p -> len (py_data p) < lim ->
  forall o sid input k, In (HCalled o RR sid p input) (trace_of c j) -> In k (got o (trace_of c j)) -> told (svc r) (stub_result tr) k.
Proof.
  intros R A table zero tr text svc exported sb behaves Hc j Rn U c n i h He Hw r p Ht Hf Hp L o sid input k Hi Hk.
  pose proof (C64_only_the_handlers_outcome exported sb behaves Hc j Rn U c o sid p input k Hi Hk) as O.
  eapply stub_outcome; eauto.
Qed.
(** When everything is delivered and answered, the subscriber of the mono that
    the client method returned is called once: with a value or an error that the
    service delivered for the record.  [tx] is the decoding given to [mono.Map]. *)
Theorem C93_typed_call_returns :
  forall R A (table : list (rfield R)) zero (tr : transform A) text svc exported sb behaves, (forall c, len (exported c) < 2 ^ 32) ->
  forall j, jruns exported sb behaves j -> usable j ->
  forall c n i h, exported_as RR (exported (negb c)) n i h -> (forall q out, behaves (negb c) h q out -> wrapped table zero tr text svc q out) ->
  forall r p, travels table zero r -> (forall a, svc r (inl a) -> exists bs, t_encode tr a = Ok bs /\ t_decode tr bs = Ok a) ->
  stub_pay table (peer_import RR (get_table (reg_run (exported (negb c)))) i) r = Ok p -> len (py_data p) < lim ->
  forall o sid input, In (HCalled o RR sid p input) (trace_of c j) -> In (HSubscribed o) (trace_of c j) -> quiet c j ->
  forall tx, (forall v a, stub_result tr v = Ok a -> tx v = inl a) ->
  forall a b f,
    (forall t v, Forall MonoProps.silent (a t v)) -> (forall t e, Forall MonoProps.silent (b t e)) -> (forall fn, f = Some fn -> forall t g, Forall MonoProps.silent (fn t g)) ->
  forall sched,
    let m := MonoModel.mrun MonoModel.proc_source MonoModel.proc_code sched
      (MonoModel.minit MonoModel.pstore0 [MonoModel.ASubscribe (MonoModel.map_handlers tx (Some a) (Some b) f) :: MonoProps.results (flat_map result_of (got o (trace_of c j)))]) in
    MonoModel.mc_stack m = [] -> MonoModel.mc_threads m = [] ->
    exists x, svc r x /\ MonoProps.observed (MonoModel.mc_trace m) = [match x with inl y => MonoModel.DSuccess y | inr e => MonoModel.DError e end].
Proof.
  intros R A table zero tr text svc exported sb behaves Hc j Rn U c n i h He Hw r p Ht Hf Hp L o sid input Hi Hs Q tx Htx a b f Ha Hb Hfs sched m M1 M2.
  destruct (C64_call_answered exported sb behaves Hc j Rn U c o sid p input Hi Hs Q) as (k & O & _ & S).
  specialize (S _ (MonoModel.map_handlers tx (Some a) (Some b) f) sched M1 M2). fold m in S.
  pose proof (stub_outcome R A table zero tr text svc (exported (negb c)) (behaves (negb c)) n i h r p k (Hc _) He Hw Ht Hf Hp L O) as T.
  assert (Ob : MonoProps.observed (MonoModel.mc_trace m) = flat_map (MonoProps.mapped true true tx) (MonoFacts.outcomes 0 (MonoModel.mc_trace m))).
  { apply (mapped_observed tx _ (Some a) (Some b) f); auto; intros fn E; injection E as <-; auto. }
  rewrite Ob, S. destruct T as [(v & y & -> & E & Y)|(e & -> & Y)].
  - exists (inl y). split; [exact Y|]. cbn. now rewrite (Htx _ _ E).
  - exists (inr e). split; [exact Y|]. reflexivity.
Qed.
(** Client and service may be generated from different versions of the record:
    the service is called with what arrives of the client's record (C89), and the
    call has one of its outcomes for that. *)
Theorem C93_across_versions :
  forall S R A (mine : list (rfield S)) (table : list (rfield R)) zero (tr : transform A) text svc exported sb behaves, (forall c, len (exported c) < 2 ^ 32) ->
  forall j, jruns exported sb behaves j -> usable j ->
  forall c n i h, exported_as RR (exported (negb c)) n i h -> (forall q out, behaves (negb c) h q out -> wrapped table zero tr text svc q out) ->
  forall g us p, distinct table -> writable mine g -> Forall2 (carried g table) mine us ->
  let r := fold_left (fun x u => u x) us zero in
  (forall a, svc r (inl a) -> exists bs, t_encode tr a = Ok bs /\ t_decode tr bs = Ok a) ->
  stub_pay mine (peer_import RR (get_table (reg_run (exported (negb c)))) i) g = Ok p -> len (py_data p) < lim ->
  forall o sid input, In (HCalled o RR sid p input) (trace_of c j) ->
    (forall k, In k (got o (trace_of c j)) -> told (svc r) (stub_result tr) k) /\
    (In (HSubscribed o) (trace_of c j) -> quiet c j -> exists k, hd_error (got o (trace_of c j)) = Some k /\ told (svc r) (stub_result tr) k).
Proof.
  intros S R A mine table zero tr text svc exported sb behaves Hc j Rn U c n i h He Hw g us p Di Wr Ca r Hf Hp L o sid input Hi.
  assert (Dr : decodes table zero (py_data p) (Ok r) /\ py_meta p = stub_meta (peer_import RR (get_table (reg_run (exported (negb c)))) i)).
  { destruct (C89_versions S R mine table zero g us Di Wr Ca) as (bs & E & f0 & F). unfold stub_pay in Hp. rewrite E in Hp. cbn [bind] in Hp. injection Hp as <-. split; [|reflexivity].
    exists f0. intros f Hf'. specialize (F f Hf' [] []). cbn [app py_data] in *. rewrite app_nil_r in F. specialize (F L). eexists. exact F. }
  destruct Dr as [Dr Pm]. assert (T : forall k, outcome (exported (negb c)) (behaves (negb c)) p k -> told (svc r) (stub_result tr) k).
  { intros k O. exact (arrived_outcome R A table zero tr text svc (exported (negb c)) (behaves (negb c)) n i h r p k (Hc _) He Hw Hf Pm Dr O). }
  split.
  - intros k Hk. apply T. exact (C64_only_the_handlers_outcome exported sb behaves Hc j Rn U c o sid p input k Hi Hk).
  - intros Hs Q. destruct (C64_call_answered exported sb behaves Hc j Rn U c o sid p input Hi Hs Q) as (k & O & E & _). exists k. split; [exact E|now apply T].
Qed.
(** Arguments the wrapper cannot decode: the caller is told the error of the
    decoder and nothing else. *)
Theorem C93_undecodable_arguments :
  forall R A (table : list (rfield R)) zero (tr : transform A) text svc exported sb behaves, (forall c, len (exported c) < 2 ^ 32) ->
  forall j, jruns exported sb behaves j -> usable j ->
  forall c n i h, exported_as RR (exported (negb c)) n i h -> (forall q out, behaves (negb c) h q out -> wrapped table zero tr text svc q out) ->
  forall p e, py_meta p = stub_meta (peer_import RR (get_table (reg_run (exported (negb c)))) i) -> decodes table zero (py_data p) (Err e) ->
  forall o sid input, In (HCalled o RR sid p input) (trace_of c j) ->
    (forall k, In k (got o (trace_of c j)) -> k = SError (text e)) /\
    (In (HSubscribed o) (trace_of c j) -> quiet c j -> hd_error (got o (trace_of c j)) = Some (SError (text e))).
Proof.
  intros R A table zero tr text svc exported sb behaves Hc j Rn U c n i h He Hw p e Pm Dr o sid input Hi.
  assert (T : forall k, outcome (exported (negb c)) (behaves (negb c)) p k -> k = SError (text e)).
  { intros k O. destruct (selected_outcome _ _ n i h p k (Hc _) He Pm O) as (q & Eq & O'). rewrite <- Eq in Dr.
    assert (W : forall out, behaves (negb c) h q out -> out = inr (text e)).
    { intros out B. destruct (Hw _ _ B) as [(r & o' & D & _)|(e' & D & ->)]; pose proof (decodes_one _ _ _ _ _ _ Dr D) as X; [discriminate X|]. now injection X as <-. }
    destruct O' as [(v & B & ->)|(x & B & ->)]; apply W in B; [discriminate B|]. now injection B as ->. }
  split.
  - intros k Hk. apply T. exact (C64_only_the_handlers_outcome exported sb behaves Hc j Rn U c o sid p input k Hi Hk).
  - intros Hs Q. destruct (C64_call_answered exported sb behaves Hc j Rn U c o sid p input Hi Hs Q) as (k & O & E & _). rewrite E. f_equal. now apply T.
Qed.
Lemma greeting_small : forall g, len (g_first g) + len (g_last g) + 64 < lim -> len (on_wire greeting_table g) < lim /\ writable greeting_table g.
Proof.
  intros [a b] Hn. cbn [g_first g_last] in Hn. assert (S : len (on_wire greeting_table {| g_first := a; g_last := b |}) < lim).
  { unfold on_wire. cbn [greeting_table map concat a_field f_name f_put g_first g_last]. rewrite app_nil_r, !len_app.
    pose proof (str_cost a). pose proof (str_cost b). replace (len first_name) with 9 by reflexivity. replace (len last_name) with 8 by reflexivity. pose proof lens. unfold bytes in *. lia. }
  split; [exact S|]. split; [|now rewrite calls_on_wire].
  repeat constructor; cbn [greeting_table a_field f_put f_name wf_prim g_first g_last]; try lia; cbn; lia.
Qed.
Lemma string_back : forall s, len s + 5 < lim -> exists bs, t_encode tr_string s = Ok bs /\ t_decode tr_string bs = Ok s.
Proof.
  intros s H. exists (mp_str s). pose proof (str_small s H) as L. cbn [surplus_prim] in L. split; [apply (single (PStr s)); [cbn [wf_prim]; lia|reflexivity|lia]|].
  cbn [t_decode tr_string]. rewrite <- (app_nil_r (mp_str s)). apply read_one_parses; [apply mp_str_parses; lia|]. rewrite app_nil_r. cbn [mp_prim] in L. unfold bytes in *. lia.
Qed.
(** The greeter of the example: the call is answered with the greeting. *)
Theorem C93_greeter :
  forall text exported sb behaves, (forall c, len (exported c) < 2 ^ 32) ->
  forall j, jruns exported sb behaves j -> usable j ->
  forall c n h, exported_as RR (exported (negb c)) n say_hello h ->
  (forall q out, behaves (negb c) h q out -> wrapped greeting_table greeting0 tr_string text greeter_service q out) ->
  forall first last, len first + len last + 64 < lim ->
  exists p, stub_pay greeting_table (peer_import RR (get_table (reg_run (exported (negb c)))) say_hello) {| g_first := first; g_last := last |} = Ok p /\
  forall o sid input, In (HCalled o RR sid p input) (trace_of c j) -> In (HSubscribed o) (trace_of c j) -> quiet c j ->
  forall tx, (forall v a, t_decode tr_string (py_data v) = Ok a -> tx v = inl a) ->
  forall sched,
    let m := MonoModel.mrun MonoModel.proc_source MonoModel.proc_code sched
      (MonoModel.minit MonoModel.pstore0 [MonoModel.ASubscribe (MonoModel.map_handlers tx (Some (fun _ _ => [])) (Some (fun _ _ => [])) None) :: MonoProps.results (flat_map result_of (got o (trace_of c j)))]) in
    MonoModel.mc_stack m = [] -> MonoModel.mc_threads m = [] ->
    MonoProps.observed (MonoModel.mc_trace m) = [MonoModel.DSuccess ([72; 101; 108; 108; 111; 44; 32] ++ first ++ [32] ++ last)].
Proof.
  intros text exported sb behaves Hc j Rn U c n h He Hw first last L. pose (g := {| g_first := first; g_last := last |}).
  destruct (greeting_small g L) as (S & W). pose proof (encode_table _ greeting_table g W) as E.
  exists {| py_data := on_wire greeting_table g; py_meta := stub_meta (peer_import RR (get_table (reg_run (exported (negb c)))) say_hello) |}. split; [unfold stub_pay; fold g; now rewrite E|].
  intros o sid input Hi Hs Q tx Htx sched m M1 M2.
  destruct (C93_typed_call_returns greeting bytes greeting_table greeting0 tr_string text greeter_service exported sb behaves Hc j Rn U c n say_hello h He Hw g
    {| py_data := on_wire greeting_table g; py_meta := stub_meta (peer_import RR (get_table (reg_run (exported (negb c)))) say_hello) |}) with (o := o) (sid := sid) (input := input) (tx := tx)
    (a := fun (_ : list (MonoModel.dev pay bytes bytes)) (_ : bytes) => @nil (MonoModel.dact pay bytes bytes (MonoModel.pcode pay bytes))) (b := fun (_ : list (MonoModel.dev pay bytes bytes)) (_ : bytes) => @nil (MonoModel.dact pay bytes bytes (MonoModel.pcode pay bytes)))
    (f := @None (list (MonoModel.dev pay bytes bytes) -> MonoModel.signal -> list (MonoModel.dact pay bytes bytes (MonoModel.pcode pay bytes)))) (sched := sched) as (x & X & Ob); auto.
  - now apply greeting_travels.
  - intros a Ha. unfold greeter_service, g in Ha. cbn [g_first g_last] in Ha. assert (K : a = [72; 101; 108; 108; 111; 44; 32] ++ first ++ [32] ++ last) by congruence. rewrite K. apply string_back. rewrite !len_app. change (len [72; 101; 108; 108; 111; 44; 32]) with 7. change (len [32]) with 1. unfold bytes in *. lia.
  - unfold stub_pay. now rewrite E.
  - discriminate.
  - etransitivity; [exact Ob|]. unfold greeter_service in X. rewrite X. reflexivity.
Qed.
(** The one-field request of the mesh example arrives as it was sent, too. *)
Theorem C93_name_travels : forall n zero, len n + 64 < lim -> travels name_table zero n.
Proof.
  intros n zero Hn. apply (travels_by _ _ _ _ [fun _ => n]); [repeat constructor; cbn; tauto| | |reflexivity].
  - split; [repeat constructor; cbn [name_table a_field f_put f_name wf_prim]; try lia; cbn; lia|]. rewrite calls_on_wire. unfold on_wire. cbn [name_table map concat a_field f_name f_put]. rewrite app_nil_r, !len_app.
    pose proof (str_cost n). pose proof lens. assert (len (mp_map (len name_table)) = 1) by reflexivity. replace (len name_name) with 4 by reflexivity. unfold bytes in *. lia.
  - constructor; [|constructor]. eapply ca_known; [left; reflexivity|reflexivity|]. apply (field_parses bytes bytes name_name read_str (fun s _ => s)). apply mp_str_parses. lia.
Qed.
(** A call of [Uppercase] of the other example carries no metadata: whatever is
    registered, the peer refuses it and calls no handler. *)
Theorem C93_uppercase_refused_refuted :
  forall reg sb client e sid n,
  hrun reg sb client [XFrame (FRequest (set_initial (call_request RC sid uppercase_pay) n)); XJob (List.length (ep_jobs e))] e =
    Ok (ep_emit [HRecv (FRequest (set_initial (call_request RC sid uppercase_pay) n));
                 HSent (FError {| er_stream := sid; er_code := 0; er_data := [73; 110; 118; 97; 108; 105; 100; 32; 109; 101; 116; 97; 100; 97; 116; 97] |})] e).
Proof.
  intros reg sb client e sid n. cbn [hrun hstep]. unfold ep_emit at 1. cbn [handle_frame call_request set_initial rq_type type_of kind_of].
  change (kind_of FrameTypeRequestChannel) with (Some RC). cbn [bind ep_job ep_jobs].
  rewrite nth_error_app2 by lia. rewrite Nat.sub_diag. cbn [nth_error].
  rewrite firstn_app, Nat.sub_diag, firstn_O, app_nil_r, firstn_all. rewrite skipn_app, skipn_all2 by lia.
  replace (S (List.length (ep_jobs e)) - List.length (ep_jobs e))%nat with 1%nat by lia. cbn [skipn app].
  rewrite app_nil_r. cbn [ep_trace ep_ids ep_guest ep_host ep_table ep_objs ep_jobs run_job handle_request rq_metadata py_meta uppercase_pay]. 
  unfold ep_job, ep_emit. cbn -[app]. unfold ep_emit. cbn [ep_ids ep_guest ep_host ep_table ep_objs ep_jobs ep_trace]. now rewrite <- app_assoc.
Qed.

(** The server of the example calls the greeter of a client that exports other
    operations as well; "Al", "B". *)
Definition C93_exports (c : bool) : list reg_call := if c then [CExport RS say_hello 3; CExport RR ([97], [98]) 4; CExport RR say_hello 5] else [].
Definition C93_text (s : string) : bytes := [].
Definition C93_behaves (c : bool) (h : N) (q : pay) (out : pay + bytes) : Prop :=
  h = 5 /\ wrapped greeting_table greeting0 tr_string C93_text greeter_service q out.
Definition C93_names : greeting := {| g_first := [65; 108]; g_last := [66] |}.
Definition C93_pay : pay :=
  match stub_pay greeting_table (peer_import RR (get_table (reg_run (C93_exports true))) say_hello) C93_names with Ok p => p | _ => uppercase_pay end.
Definition C93_do (c : bool) (x : hop) (j : joint) : joint :=
  put_side c (advance x (match hstep (reg_run (C93_exports c)) (fun _ => true) c x (sd_ep (at_side c j)) with Ok e => e | _ => ep_init end) (at_side c j)) j.
Definition C93_get (c : bool) (n : nat) (j : joint) : joint := C93_do c (XFrame (nth n (sd_out (at_side (negb c) j)) (FCancel {| cn_stream := 0 |}))) j.
Definition C93_answer : pay := {| py_data := match t_encode tr_string ([72; 101; 108; 108; 111; 44; 32] ++ [65; 108] ++ [32] ++ [66]) with Ok d => d | _ => [] end; py_meta := [] |}.
Definition C93_1 := C93_do false (XCall RR C93_pay false) joint_init.
Definition C93_2 := C93_do false (XSubscribe 0) C93_1.
Definition C93_3 := C93_get true 0 C93_2.
Definition C93_4 := C93_do true (XJob 0) C93_3.
Definition C93_5 := put_side true (write (answer_frame 2 (inl C93_answer)) (at_side true C93_4)) C93_4.
Definition C93_6 := C93_get false 0 C93_5.
Lemma C93_op : forall c x j, (forall f, x <> XFrame f) ->
  hstep (reg_run (C93_exports c)) (fun _ => true) c x (sd_ep (at_side c j)) =
    Ok (match hstep (reg_run (C93_exports c)) (fun _ => true) c x (sd_ep (at_side c j)) with Ok e => e | _ => ep_init end) ->
  jruns C93_exports (fun _ _ => true) C93_behaves j -> jruns C93_exports (fun _ _ => true) C93_behaves (C93_do c x j).
Proof. intros c x j Hx H R. eapply jr_step; [exact R|]. unfold C93_do. apply JOp; auto. Qed.
Lemma C93_frame : forall m c n j, let g := nth n (sd_out (at_side (negb c) j)) (FCancel {| cn_stream := 0 |}) in
  hstep (reg_run (C93_exports c)) (fun _ => true) c (XFrame g) (sd_ep (at_side c j)) =
    Ok (match hstep (reg_run (C93_exports c)) (fun _ => true) c (XFrame g) (sd_ep (at_side c j)) with Ok e => e | _ => ep_init end) ->
  C64_writable (sd_out (at_side (negb c) j)) = true ->
  read_frames_all 9 [] [Chunk (firstn m (concat (map (@concat N) (C64_writes (sd_out (at_side (negb c) j))))))] = Some (received (trace_of c j) ++ [g], ConnEof) ->
  jruns C93_exports (fun _ _ => true) C93_behaves j -> jruns C93_exports (fun _ _ => true) C93_behaves (C93_get c n j).
Proof. intros m c n j g H W V R. eapply jr_step; [exact R|]. unfold C93_get, C93_do. apply JFrame; [apply (C64_reads m); auto|exact H]. Qed.
Lemma C93_wrapped : C93_behaves true 5 {| py_data := py_data C93_pay; py_meta := [] |} (inl C93_answer).
Proof.
  split; [reflexivity|]. left. exists C93_names, (inl ([72; 101; 108; 108; 111; 44; 32] ++ [65; 108] ++ [32] ++ [66])). split; [|split; reflexivity].
  cbn [py_data]. eapply travels_decodes; [apply greeting_travels; reflexivity|vm_compute; reflexivity|vm_compute; reflexivity].
Qed.
Example C93_example :
  jruns C93_exports (fun _ _ => true) C93_behaves C93_6 /\ usable C93_6 /\ quiet false C93_6 /\ exported_as RR (C93_exports true) 1 say_hello 5 /\
  In (HCalled 0 RR 2 C93_pay false) (trace_of false C93_6) /\ In (HSubscribed 0) (trace_of false C93_6) /\
  len (g_first C93_names) + len (g_last C93_names) + 64 < lim /\ got 0 (trace_of false C93_6) = [SNext C93_answer] /\
  t_decode tr_string (py_data C93_answer) = Ok [72; 101; 108; 108; 111; 44; 32; 65; 108; 32; 66].
Proof.
  split.
  { unfold C93_6. apply (C93_frame 1000); [vm_compute; reflexivity..|].
    unfold C93_5. eapply jr_step; [|eapply (JAnswer _ _ _ true 2 5 {| py_data := py_data C93_pay; py_meta := [] |}); [vm_compute; tauto|exact C93_wrapped]].
    unfold C93_4. apply C93_op; [discriminate|vm_compute; reflexivity|].
    unfold C93_3. apply (C93_frame 1000); [vm_compute; reflexivity..|].
    unfold C93_2. apply C93_op; [discriminate|vm_compute; reflexivity|].
    unfold C93_1. apply C93_op; [discriminate|vm_compute; reflexivity|]. constructor. }
  split.
  { intros c. split; [|destruct c; vm_compute; reflexivity]. destruct c.
    - let l := eval vm_compute in (sd_out (at_side true C93_6)) in change (sd_out (at_side true C93_6)) with l. repeat constructor; cbn; lia.
    - let l := eval vm_compute in (sd_out (at_side false C93_6)) in change (sd_out (at_side false C93_6)) with l. repeat constructor; cbn; lia. }
  split.
  { split; [intros []; vm_compute; reflexivity|]. split; [reflexivity|]. intros sid h p H. vm_compute in H. repeat match type of H with _ \/ _ => destruct H as [H|H]; [try discriminate H|] end; [|destruct H].
    injection H as <- <- <-. exists (inl C93_answer). vm_compute. tauto. }
  split.
  { split; [reflexivity|]. intros m j h' H E. subst j. destruct m as [|m]; [vm_compute in H; discriminate|lia]. }
  vm_compute. repeat split; auto.
Qed.
(** A service generated when the request had only a last name; data that is not a record. *)
Definition last_table : list (rfield bytes) := [a_field last_name read_str (fun s _ => s) PStr].
Example C93_versions_example :
  distinct last_table /\ writable greeting_table C93_names /\ Forall2 (carried C93_names last_table) greeting_table [(fun x => x); (fun _ => [66])] /\
  fold_left (fun x u => u x) [(fun x => x); (fun _ => [66])] [] = [66] /\ exists e, decodes greeting_table greeting0 [193] (Err e).
Proof.
  split; [repeat constructor; cbn; tauto|]. split; [apply greeting_small; reflexivity|]. split; [|split; [reflexivity|]].
  - constructor; [|constructor; [|constructor]].
    + apply ca_unknown; [|apply (v_str false [162] [65; 108]); exact (sf_fix 2 eq_refl)]. intros f' [<-|[]]. discriminate.
    + eapply ca_known; [left; reflexivity|reflexivity|]. apply (field_parses bytes bytes last_name read_str (fun s _ => s)). apply mp_str_parses. reflexivity.
  - eexists. exists 1%nat. intros f Hf. destruct f as [|f]; [lia|]. eexists. vm_compute. reflexivity.
Qed.
Print Assumptions C93_only_service_outcomes.
Print Assumptions C93_typed_call_returns.
Print Assumptions C93_across_versions.
Print Assumptions C93_undecodable_arguments.
Print Assumptions C93_greeter.
Print Assumptions C93_name_travels.
Print Assumptions C93_uppercase_refused_refuted.
