(** C103: typed calls between the modules of a mesh. *)
From Verif Require Import Base BaseFacts FramesModel FramesProps MsgpackModel MsgpackSpec MsgpackProps MsgpackValues MsgpackAny RecordModel InvokeModel InvokeProofs InvokeProps TransformModel TransformProps
  TableModel TableProps LookupModel HandlerModel HandlerCallProps JointModel JointFacts JointProps StubModel StubProps WasmEndModel WasmJointModel WasmJointFacts WasmJointProps
  MeshModel MeshProps MeshCallModel MeshCallProps MeshTypedModel.
From Verif Require MonoModel MonoFacts MonoProps.
Local Ltac Zify.zify_post_hook ::= Z.div_mod_to_equations.
Local Notation lim := 4294967296 (only parsing).

(** *** Specification: an outcome that some module's service for operation [i]
    delivers for the record. *)
Definition served_by {R A} (mods : list (bytes * list reg_call)) (svc : nat -> N -> R -> A + bytes -> Prop) (i : info) (r : R) (x : A + bytes) : Prop :=
  exists b h, serves_call mods i b h /\ svc b h r x.

Section C103.
Context {R A : Type}.
Variables (table : list (rfield R)) (zero : R) (tr : transform A) (text : string -> bytes) (svc : nat -> N -> R -> A + bytes -> Prop).
Variable mods : list (bytes * list reg_call).
Variable service : nat -> N -> pay -> pay + bytes -> Prop.
Variable i : info.
Hypothesis wraps : forall b h, serves_call mods i b h -> forall q out, service b h q out -> wrapped table zero tr text (svc b h) q out.
(** What may come back of the payload of a typed call. *)
Lemma mesh_told : forall r p k, decodes table zero (py_data p) (Ok r) -> (forall b h y, serves_call mods i b h -> svc b h r (inl y) -> exists bs, t_encode tr y = Ok bs /\ t_decode tr bs = Ok y) ->
  mesh_outcome mods service i p k ->
  told (served_by mods svc i r) (stub_result tr) k \/ ((forall b h, ~ serves_call mods i b h) /\ k = SError not_found).
Proof.
  intros r p k Dr Hf [(b & h & out & S & V & ->)|[N ->]]; [left|right; auto].
  pose proof (wraps b h S _ _ V) as W. eapply wrapped_outcome in W; [|exact Dr]. destruct W as (o & O & En). destruct o as [y|e]; cbn [encoded] in En.
  - destruct (Hf b h y S O) as (bs & E1 & E2). rewrite E1 in En. subst out. left. exists {| py_data := bs; py_meta := [] |}, y. split; [reflexivity|]. split; [exact E2|]. exists b, h. auto.
  - subst out. right. exists e. split; [reflexivity|]. exists b, h. auto.
Qed.
End C103.
(** What a typed call of an imported operation gives is an outcome that a service
    of some module delivers for the record, or the error that there is none. *)
Theorem C103_typed_call :
  forall R A (table : list (rfield R)) zero (tr : transform A) text svc mods m sb service room (answers : nat -> N -> pay -> pay + bytes -> Prop) i,
  Forall (fun x => len (snd x) < 2 ^ 32 - 1) mods -> load_all (mesh_tables mods) mesh_new = Ok m ->
  (forall n i q r, answers n i q r -> relays mods m sb service room answers n i q r) -> single_calls_only mods i ->
  (forall b h, serves_call mods i b h -> forall q out, service b h q out -> wrapped table zero tr text (svc b h) q out) ->
  forall a f calls, nth_error mods a = Some (f, calls) -> In (CImport RR i) calls ->
  forall r x, travels table zero r -> (forall p, stub_pay table (import_after calls RR i) r = Ok p -> len (py_data p) < lim) ->
  (forall b h y, serves_call mods i b h -> svc b h r (inl y) -> exists bs, t_encode tr y = Ok bs /\ t_decode tr bs = Ok y) ->
  typed_call mods m sb service room answers text a i table tr r x ->
  served_by mods svc i r x \/ ((forall b h, ~ serves_call mods i b h) /\ x = inr not_found).
Proof.
  intros R A table zero tr text svc mods m sb service room answers i F H Re So Wr a f calls Ha Hi r x Tr Ls Hf T.
  unfold typed_call in T. assert (Er : registered mods a = calls) by (unfold registered; now rewrite Ha). rewrite Er in T.
  assert (Tr' := Tr). destruct Tr' as (bs & Eb & _). destruct (stub_pay table (import_after calls RR i) r) as [p|e|] eqn:Ep; [|unfold stub_pay in Ep; rewrite Eb in Ep; discriminate Ep|destruct T].
  specialize (Ls p eq_refl). destruct T as (j & o & sid & k & Rn & U & Hc & Hk & X).
  assert (Pm : py_meta p = be 4 (import_after calls RR i) ++ [0; 0; 0; 0] /\ py_data p = bs). { unfold stub_pay in Ep. rewrite Eb in Ep. cbn [bind] in Ep. injection Ep as <-. split; reflexivity. } destruct Pm as [Pm Pd].
  pose proof (C101_only_the_exporters_outcome mods m sb service room answers F H Re a f calls i Ha Hi So j Rn U o sid p [0; 0; 0; 0] false k Pm ltac:(reflexivity) Hc Hk) as O.
  assert (Dr : decodes table zero (py_data p) (Ok r)) by (rewrite Pd; rewrite Pd in Ls; eapply travels_decodes; eauto).
  destruct (mesh_told table zero tr text svc mods service i Wr r p k Dr Hf O) as [[(v & y & -> & E & S)|(e & -> & S)]|[N ->]].
  - rewrite E in X. subst x. now left.
  - subst x. now left.
  - right. auto.
Qed.
(** When the host has delivered and answered everything, the subscriber of the
    mono that the client method returned is called once, with such an outcome.
    [tx] is the decoding given to [mono.Map]. *)
Theorem C103_typed_call_returns :
  forall R A (table : list (rfield R)) zero (tr : transform A) text svc mods m sb service room (answers : nat -> N -> pay -> pay + bytes -> Prop) i,
  Forall (fun x => len (snd x) < 2 ^ 32 - 1) mods -> load_all (mesh_tables mods) mesh_new = Ok m ->
  (forall n i q r, answers n i q r -> relays mods m sb service room answers n i q r) -> single_calls_only mods i ->
  (forall b h, serves_call mods i b h -> forall q out, service b h q out -> wrapped table zero tr text (svc b h) q out) -> (exists b h, serves_call mods i b h) ->
  forall a f calls, nth_error mods a = Some (f, calls) -> In (CImport RR i) calls ->
  forall r p, travels table zero r -> (forall b h y, serves_call mods i b h -> svc b h r (inl y) -> exists bs, t_encode tr y = Ok bs /\ t_decode tr bs = Ok y) ->
  stub_pay table (import_after calls RR i) r = Ok p -> len (py_data p) < lim ->
  forall j, instance_runs mods m sb service room answers a j -> fits (room a) j ->
  forall o sid input, In (HCalled o RR sid p input) (trace_of true j) -> In (HSubscribed o) (trace_of true j) -> quiet true j ->
  forall tx, (forall v y, stub_result tr v = Ok y -> tx v = inl y) ->
  forall c d e,
    (forall t v, Forall MonoProps.silent (c t v)) -> (forall t x, Forall MonoProps.silent (d t x)) -> (forall fn, e = Some fn -> forall t g, Forall MonoProps.silent (fn t g)) ->
  forall sched,
    let m := MonoModel.mrun MonoModel.proc_source MonoModel.proc_code sched
      (MonoModel.minit MonoModel.pstore0 [MonoModel.ASubscribe (MonoModel.map_handlers tx (Some c) (Some d) e) :: MonoProps.results (flat_map result_of (got o (trace_of true j)))]) in
    MonoModel.mc_stack m = [] -> MonoModel.mc_threads m = [] ->
    exists x, served_by mods svc i r x /\ MonoProps.observed (MonoModel.mc_trace m) = [match x with inl y => MonoModel.DSuccess y | inr z => MonoModel.DError z end].
Proof.
  intros R A table zero tr text svc mods m sb service room answers i F H Re So Wr (b0 & h0 & Ex) a f calls Ha Hi r p Tr Hf Ep Ls j Rn U o sid input Hc Hs Q tx Htx c d e Hc' Hd He sched mm M1 M2.
  assert (Tr' := Tr). destruct Tr' as (bs & Eb & _).
  assert (Pm : py_meta p = be 4 (import_after calls RR i) ++ [0; 0; 0; 0] /\ py_data p = bs). { unfold stub_pay in Ep. rewrite Eb in Ep. cbn [bind] in Ep. injection Ep as <-. split; reflexivity. } destruct Pm as [Pm Pd].
  destruct (C101_call_answered mods m sb service room answers F H Re a f calls i Ha Hi So j Rn U o sid p [0; 0; 0; 0] input Pm ltac:(reflexivity) Hc Hs Q) as (k & O & _ & S).
  assert (Dr : decodes table zero (py_data p) (Ok r)) by (rewrite Pd; rewrite Pd in Ls; eapply travels_decodes; eauto).
  specialize (S _ (MonoModel.map_handlers tx (Some c) (Some d) e) sched M1 M2). fold mm in S.
  assert (Ob : MonoProps.observed (MonoModel.mc_trace mm) = flat_map (MonoProps.mapped true true tx) (MonoFacts.outcomes 0 (MonoModel.mc_trace mm))).
  { apply (mapped_observed tx _ (Some c) (Some d) e); auto; intros fn E; injection E as <-; auto. }
  rewrite Ob, S. destruct (mesh_told table zero tr text svc mods service i Wr r p k Dr Hf O) as [[(v & y & -> & E & Y)|(z & -> & Y)]|[N ->]].
  - exists (inl y). split; [exact Y|]. cbn. now rewrite (Htx _ _ E).
  - exists (inr z). split; [exact Y|]. reflexivity.
  - destruct (N _ _ Ex).
Qed.
Lemma strings_small : forall l r op p, len l + len r + 64 < lim -> stub_pay strings_table op (l, r) = Ok p -> len (py_data p) < lim.
Proof.
  intros l r op p L E. assert (S : len (on_wire strings_table (l, r)) < lim).
  { unfold on_wire. cbn [strings_table map concat a_field f_name f_put fst snd]. rewrite app_nil_r, !len_app.
    pose proof (str_cost l). pose proof (str_cost r). assert (len (mp_map (len strings_table)) = 1) by reflexivity. pose proof lens. replace (len name_left) with 4 by reflexivity. replace (len name_right) with 5 by reflexivity. unfold bytes in *. lia. }
  assert (W : writable strings_table (l, r)). { split; [|now rewrite calls_on_wire]. repeat constructor; cbn [strings_table a_field f_put f_name wf_prim fst snd]; try lia; cbn; lia. }
  unfold stub_pay in E. rewrite (encode_table _ strings_table (l, r) W) in E. cbn [bind] in E. injection E as <-. exact S.
Qed.
Lemma name_small : forall n op p, len n + 64 < lim -> stub_pay name_table op n = Ok p -> len (py_data p) < lim.
Proof.
  intros n op p L E. assert (S : len (on_wire name_table n) < lim).
  { unfold on_wire. cbn [name_table map concat a_field f_name f_put]. rewrite app_nil_r, !len_app.
    pose proof (str_cost n). pose proof lens. assert (len (mp_map (len name_table)) = 1) by reflexivity. replace (len name_name) with 4 by reflexivity. unfold bytes in *. lia. }
  assert (W : writable name_table n). { split; [|now rewrite calls_on_wire]. repeat constructor; cbn [name_table a_field f_put f_name wf_prim]; try lia; cbn; lia. }
  unfold stub_pay in E. rewrite (encode_table _ name_table n W) in E. cbn [bind] in E. injection E as <-. exact S.
Qed.
Local Opaque typed_call strings_table name_table.
(** The customer module of the mesh example greets the customer with both names,
    whatever else the mesh holds, when the modules that export "concat" and
    "sayHello" are those of the example.  Without such a module the missing part
    is empty, and no error is reported. *)
Theorem C103_new_customer :
  forall text mods m sb service room (answers : nat -> N -> pay -> pay + bytes -> Prop),
  Forall (fun x => len (snd x) < 2 ^ 32 - 1) mods -> load_all (mesh_tables mods) mesh_new = Ok m ->
  (forall n i q r, answers n i q r -> relays mods m sb service room answers n i q r) ->
  single_calls_only mods concat_op -> single_calls_only mods hello_op ->
  (forall b h, serves_call mods concat_op b h -> forall q out, service b h q out -> wrapped strings_table ([], []) tr_string text concat_service q out) ->
  (forall b h, serves_call mods hello_op b h -> forall q out, service b h q out -> wrapped name_table [] tr_string text hello_service q out) ->
  forall a f h, nth_error mods a = Some (f, customer_module h) ->
  forall first last o, len first + len last + 72 < lim -> new_customer mods m sb service room answers text a {| g_first := first; g_last := last |} o ->
  ((exists b h, serves_call mods concat_op b h) -> (exists b h, serves_call mods hello_op b h) -> o = inl ([72; 101; 108; 108; 111; 44; 32] ++ first ++ [32] ++ last)) /\
  ((forall b h, ~ serves_call mods concat_op b h) -> (exists b h, serves_call mods hello_op b h) -> o = inl [72; 101; 108; 108; 111; 44; 32]) /\
  ((forall b h, ~ serves_call mods hello_op b h) -> o = inl []).
Proof.
  intros text mods m sb service room answers F H Re S1 S2 W1 W2 a f h Ha first last o L (x & y & Tx & Ty & ->). cbn [g_first g_last] in Tx.
  assert (I1 : In (CImport RR concat_op) (customer_module h)) by (left; reflexivity). assert (I2 : In (CImport RR hello_op) (customer_module h)) by (right; left; reflexivity).
  assert (X : served_by mods (fun _ _ => concat_service) concat_op (first, last) x \/ ((forall b h, ~ serves_call mods concat_op b h) /\ x = inr not_found)).
  { apply (C103_typed_call _ _ strings_table ([], []) tr_string text (fun _ _ => concat_service) mods m sb service room answers concat_op F H Re S1 W1 a f _ Ha I1 (first, last) x); [| | |exact Tx].
    - apply strings_travels. lia.
    - intros p. apply strings_small. lia.
    - intros b h' z _ Z. assert (z = first ++ [32] ++ last) by (unfold concat_service in Z; cbn [fst snd] in Z; congruence). subst z. apply string_back. rewrite !len_app. replace (len [32]) with 1 by reflexivity. unfold bytes in *. lia. }
  assert (V : len (value_of x) + 64 < lim /\ ((exists b h, serves_call mods concat_op b h) -> value_of x = first ++ [32] ++ last) /\ ((forall b h, ~ serves_call mods concat_op b h) -> value_of x = [])).
  { destruct X as [(b & h' & Sv & X)|[N ->]].
    - unfold concat_service in X. cbn [fst snd] in X. subst x. cbn [value_of]. split; [rewrite !len_app; replace (len [32]) with 1 by reflexivity; unfold bytes in *; lia|]. split; [intros _; reflexivity|]. intros N. destruct (N _ _ Sv).
    - cbn [value_of]. split; [replace (len []) with 0 by reflexivity; lia|]. split; [|intros _; reflexivity]. intros (b & h' & Sv). destruct (N _ _ Sv). }
  destruct V as (Lv & V1 & V2).
  assert (Y : served_by mods (fun _ _ => hello_service) hello_op (value_of x) y \/ ((forall b h, ~ serves_call mods hello_op b h) /\ y = inr not_found)).
  { apply (C103_typed_call _ _ name_table [] tr_string text (fun _ _ => hello_service) mods m sb service room answers hello_op F H Re S2 W2 a f _ Ha I2 (value_of x) y); [| | |exact Ty].
    - apply C93_name_travels. exact Lv.
    - intros p. apply name_small. exact Lv.
    - intros b h' z _ Z. assert (z = [72; 101; 108; 108; 111; 44; 32] ++ value_of x) by (unfold hello_service in Z; injection Z as ->; reflexivity). subst z. apply string_back. rewrite len_app. replace (len [72; 101; 108; 108; 111; 44; 32]) with 7 by reflexivity. unfold bytes in *. lia. }
  destruct Y as [(b & h' & Sv & Y)|[N ->]].
  - unfold hello_service in Y. subst y. split; [|split].
    + intros Ec _. cbn [value_of]. rewrite (V1 Ec). reflexivity.
    + intros N _. cbn [value_of]. rewrite (V2 N), app_nil_r. reflexivity.
    + intros N. destruct (N _ _ Sv).
  - split; [|split]; [intros _ (b & h' & Sv); destruct (N _ _ Sv)|intros _ (b & h' & Sv); destruct (N _ _ Sv)|reflexivity].
Qed.
Local Transparent typed_call strings_table name_table.
(** So it does in every mesh that holds the three modules, in any order and beside any others. *)
Corollary C103_three_modules :
  forall text mods m sb service room (answers : nat -> N -> pay -> pay + bytes -> Prop),
  Forall (fun x => len (snd x) < 2 ^ 32 - 1) mods -> load_all (mesh_tables mods) mesh_new = Ok m ->
  (forall n i q r, answers n i q r -> relays mods m sb service room answers n i q r) ->
  single_calls_only mods concat_op -> single_calls_only mods hello_op ->
  (forall b h, serves_call mods concat_op b h -> forall q out, service b h q out -> wrapped strings_table ([], []) tr_string text concat_service q out) ->
  (forall b h, serves_call mods hello_op b h -> forall q out, service b h q out -> wrapped name_table [] tr_string text hello_service q out) ->
  forall a b c f1 f2 f3 h1 h2 h3, nth_error mods a = Some (f1, customer_module h1) -> nth_error mods b = Some (f2, concat_module h2) -> nth_error mods c = Some (f3, greeting_module h3) ->
  forall first last o, len first + len last + 72 < lim -> new_customer mods m sb service room answers text a {| g_first := first; g_last := last |} o ->
  o = inl ([72; 101; 108; 108; 111; 44; 32] ++ first ++ [32] ++ last).
Proof.
  intros text mods m sb service room answers F H Re S1 S2 W1 W2 a b c f1 f2 f3 h1 h2 h3 Ha Hb Hc first last o L Hn.
  apply (C103_new_customer text mods m sb service room answers F H Re S1 S2 W1 W2 a f1 h1 Ha first last o L Hn).
  - exists b, h2, f2, (concat_module h2). split; [exact Hb|left; reflexivity].
  - exists c, h3, f3, (greeting_module h3). split; [exact Hc|left; reflexivity].
Qed.
(** The mesh example: the modules concat, greeting and customer, and the customer "A", "B". *)
Definition C103_mods : list (bytes * list reg_call) := [([1], concat_module 4); ([2], greeting_module 5); ([3], customer_module 6)].
Definition C103_mesh : mesh := match load_all (mesh_tables C103_mods) mesh_new with Ok m => m | _ => mesh_new end.
Definition C103_text (_ : string) : bytes := [1].
Definition C103_service (n : nat) (h : N) (p : pay) (r : pay + bytes) : Prop :=
  (n = 0%nat /\ h = 4 /\ wrapped strings_table ([], []) tr_string C103_text concat_service p r) \/ (n = 1%nat /\ h = 5 /\ wrapped name_table [] tr_string C103_text hello_service p r).
Definition C103_pay (r : res pay) : pay := match r with Ok p => p | _ => {| py_data := []; py_meta := [] |} end.
Definition C103_name : bytes := [65; 32; 66].
Definition C103_hello : bytes := [72; 101; 108; 108; 111; 44; 32; 65; 32; 66].
Definition C103_p1 : pay := C103_pay (stub_pay strings_table (import_after (registered C103_mods 2) RR concat_op) ([65], [66])).
Definition C103_p2 : pay := C103_pay (stub_pay name_table (import_after (registered C103_mods 2) RR hello_op) C103_name).
Definition C103_v1 : pay := {| py_data := mp_str C103_name; py_meta := [] |}.
Definition C103_v2 : pay := {| py_data := mp_str C103_hello; py_meta := [] |}.
Definition C103_answers (n : nat) (i : N) (q : pay) (r : pay + bytes) : Prop :=
  n = 2%nat /\ ((i = 0 /\ q = C103_p1 /\ r = inl C103_v1) \/ (i = 1 /\ q = C103_p2 /\ r = inl C103_v2)).
(** What the mesh hands to the instances of the exporters: their handler 0. *)
Definition C103_s1 : pay := {| py_data := py_data C103_p1; py_meta := [0; 0; 0; 0; 0; 0; 0; 0] |}.
Definition C103_s2 : pay := {| py_data := py_data C103_p2; py_meta := [0; 0; 0; 0; 0; 0; 0; 0] |}.
Definition C103_do (n : nat) := w_do (registered C103_mods n) (import_handlers C103_mesh n).
Definition C103_get (n : nat) := w_get (registered C103_mods n) (import_handlers C103_mesh n).
Definition C103_e1 := C103_get 0 false (C99_reply true 2 (inl C103_v1) (C103_do 0 true (XJob 0) (C103_get 0 true (C103_do 0 false (XSubscribe 0) (C103_do 0 false (XCall RR C103_s1 false) joint_init))))).
Definition C103_e2 := C103_get 1 false (C99_reply true 2 (inl C103_v2) (C103_do 1 true (XJob 0) (C103_get 1 true (C103_do 1 false (XSubscribe 0) (C103_do 1 false (XCall RR C103_s2 false) joint_init))))).
(** The instance of the customer: the second call is made when the first is answered. *)
Definition C103_c1 := C103_get 2 true (C99_reply false 1 (inl C103_v1) (C103_do 2 false (XJob 0) (C103_get 2 false (C103_do 2 true (XSubscribe 0) (C103_do 2 true (XCall RR C103_p1 false) joint_init))))).
Definition C103_c := C103_get 2 true (C99_reply false 3 (inl C103_v2) (C103_do 2 false (XJob 0) (C103_get 2 false (C103_do 2 true (XSubscribe 1) (C103_do 2 true (XCall RR C103_p2 false) C103_c1))))).
Definition C103_runs := instance_runs C103_mods C103_mesh (fun _ _ _ => true) C103_service (fun _ => C99_room) C103_answers.
Example C103_run : C103_runs 2 C103_c /\ got 0 (trace_of true C103_c) = [SNext C103_v1] /\ got 1 (trace_of true C103_c) = [SNext C103_v2].
Proof.
  split.
  { change (w_runs (registered C103_mods 2) (import_handlers C103_mesh 2) (at_instance C103_service C103_answers 2) C103_c). unfold C103_c, C103_c1, C103_get, C103_do.
    w_act. eapply (w_answered _ _ _ false 3 1 C103_p2); [vm_compute; tauto|split; [reflexivity|right; repeat split]|]. do 4 w_act.
    w_act. eapply (w_answered _ _ _ false 1 0 C103_p1); [vm_compute; tauto|split; [reflexivity|left; repeat split]|]. do 4 w_act. constructor. }
  vm_compute. tauto.
Qed.
Lemma C103_strings : wrapped strings_table ([], []) tr_string C103_text concat_service {| py_data := py_data C103_p1; py_meta := [] |} (inl C103_v1).
Proof.
  left. exists ([65], [66]), (inl C103_name). split; [|split; [reflexivity|vm_compute; reflexivity]]. cbn [py_data].
  apply travels_decodes; [apply strings_travels; cbn; lia|vm_compute; reflexivity|vm_compute; reflexivity].
Qed.
Lemma C103_names : wrapped name_table [] tr_string C103_text hello_service {| py_data := py_data C103_p2; py_meta := [] |} (inl C103_v2).
Proof.
  left. exists C103_name, (inl C103_hello). split; [|split; [reflexivity|vm_compute; reflexivity]]. cbn [py_data].
  apply travels_decodes; [apply C93_name_travels; cbn; lia|vm_compute; reflexivity|vm_compute; reflexivity].
Qed.
(** All hypotheses of the theorems hold in it, both services are there, and the customer is greeted. *)
Example C103_example :
  Forall (fun x => len (snd x) < 2 ^ 32 - 1) C103_mods /\ load_all (mesh_tables C103_mods) mesh_new = Ok C103_mesh /\
  (forall n i q r, C103_answers n i q r -> relays C103_mods C103_mesh (fun _ _ _ => true) C103_service (fun _ => C99_room) C103_answers n i q r) /\
  single_calls_only C103_mods concat_op /\ single_calls_only C103_mods hello_op /\
  (forall b h, serves_call C103_mods concat_op b h -> forall q out, C103_service b h q out -> wrapped strings_table ([], []) tr_string C103_text concat_service q out) /\
  (forall b h, serves_call C103_mods hello_op b h -> forall q out, C103_service b h q out -> wrapped name_table [] tr_string C103_text hello_service q out) /\
  nth_error C103_mods 2 = Some ([3], customer_module 6) /\ serves_call C103_mods concat_op 0 4 /\ serves_call C103_mods hello_op 1 5 /\
  stub_pay strings_table (import_after (customer_module 6) RR concat_op) ([65], [66]) = Ok C103_p1 /\
  In (HCalled 0 RR 1 C103_p1 false) (trace_of true C103_c) /\ In (HSubscribed 0) (trace_of true C103_c) /\ quiet true C103_c /\
  new_customer C103_mods C103_mesh (fun _ _ _ => true) C103_service (fun _ => C99_room) C103_answers C103_text 2 {| g_first := [65]; g_last := [66] |} (inl C103_hello).
Proof.
  assert (R1 : C103_runs 0 C103_e1).
  { change (w_runs (registered C103_mods 0) (import_handlers C103_mesh 0) (at_instance C103_service C103_answers 0) C103_e1). unfold C103_e1, C103_get, C103_do.
    w_act. eapply (w_answered _ _ _ true 2 4 {| py_data := py_data C103_p1; py_meta := [] |}); [vm_compute; tauto|left; split; [reflexivity|split; [reflexivity|exact C103_strings]]|]. do 4 w_act. constructor. }
  assert (R2 : C103_runs 1 C103_e2).
  { change (w_runs (registered C103_mods 1) (import_handlers C103_mesh 1) (at_instance C103_service C103_answers 1) C103_e2). unfold C103_e2, C103_get, C103_do.
    w_act. eapply (w_answered _ _ _ true 2 5 {| py_data := py_data C103_p2; py_meta := [] |}); [vm_compute; tauto|right; split; [reflexivity|split; [reflexivity|exact C103_names]]|]. do 4 w_act. constructor. }
  assert (F1 : fits C99_room C103_e1) by w_fits C103_e1. assert (F2 : fits C99_room C103_e2) by w_fits C103_e2. assert (Fc : fits C99_room C103_c) by w_fits C103_c.
  assert (S1 : forall b h, serves_call C103_mods concat_op b h -> b = 0%nat /\ h = 4) by
    (intros b h (f & calls & E & I); do 3 (destruct b as [|b]; [injection E as <- <-; cbn [In concat_module greeting_module customer_module] in I; repeat (destruct I as [I|I]; [first [discriminate I|injection I as <-; auto]|]); destruct I|]); destruct b; discriminate E).
  assert (S2 : forall b h, serves_call C103_mods hello_op b h -> b = 1%nat /\ h = 5) by
    (intros b h (f & calls & E & I); do 3 (destruct b as [|b]; [injection E as <- <-; cbn [In concat_module greeting_module customer_module] in I; repeat (destruct I as [I|I]; [first [discriminate I|injection I as <-; auto]|]); destruct I|]); destruct b; discriminate E).
  destruct C103_run as (Rc & G0 & G1).
  split; [repeat constructor|]. split; [vm_compute; reflexivity|]. split.
  { intros n i q r (-> & [(-> & -> & ->)|(-> & -> & ->)]).
    - exists {| d_inst := 0; d_index := 0 |}, 0%nat, (py_meta C103_s1), C103_e1, 0, 2. split; [vm_compute; reflexivity|]. split; [vm_compute; reflexivity|]. split; [exact R1|]. split; [exact F1|]. split; vm_compute; tauto.
    - exists {| d_inst := 1; d_index := 0 |}, 1%nat, (py_meta C103_s2), C103_e2, 0, 2. split; [vm_compute; reflexivity|]. split; [vm_compute; reflexivity|]. split; [exact R2|]. split; [exact F2|]. split; vm_compute; tauto. }
  assert (So : forall i, single_calls_only C103_mods i).
  { intros i x k h Hx He. unfold C103_mods, concat_module, greeting_module, customer_module in Hx. cbn [In] in Hx.
    repeat (destruct Hx as [<-|Hx]; [cbn [snd In] in He; repeat (destruct He as [He|He]; [first [discriminate He|exact (eq_sym (f_equal (fun c => match c with CExport k _ _ => k | _ => RR end) He))]|]); destruct He|]). destruct Hx. }
  split; [apply So|]. split; [apply So|].
  split. { intros b h Hs q out [(-> & -> & W)|(-> & -> & W)]; [exact W|]. destruct (S1 _ _ Hs) as [E _]. discriminate E. }
  split. { intros b h Hs q out [(-> & -> & W)|(-> & -> & W)]; [|exact W]. destruct (S2 _ _ Hs) as [E _]. discriminate E. }
  split; [reflexivity|]. split; [exists [1], (concat_module 4); split; [reflexivity|left; reflexivity]|]. split; [exists [2], (greeting_module 5); split; [reflexivity|left; reflexivity]|].
  split; [vm_compute; reflexivity|]. split; [vm_compute; tauto|]. split; [vm_compute; tauto|]. split.
  { split; [intros []; vm_compute; reflexivity|]. split; [vm_compute; reflexivity|]. intros sid h p H.
    assert (X : sid = 1 \/ sid = 3). { revert H. let l := eval vm_compute in (trace_of (negb true) C103_c) in assert (E : trace_of (negb true) C103_c = l) by (vm_compute; reflexivity); rewrite E; clear E.
      intros H. cbn [In] in H. repeat (destruct H as [H|H]; [try discriminate H; injection H; intros; subst; auto|]). destruct H. }
    destruct X as [-> | ->]; [exists (inl C103_v1)|exists (inl C103_v2)]; vm_compute; tauto. }
  exists (inl C103_name), (inl C103_hello). split; [|split; [|reflexivity]].
  - unfold typed_call. cbn [g_first g_last].
    replace (stub_pay strings_table _ _) with (Ok C103_p1) by (vm_compute; reflexivity).
    exists C103_c, 0, 1, (SNext C103_v1). split; [exact Rc|]. split; [exact Fc|]. split; [vm_compute; tauto|]. split; [rewrite G0; left; reflexivity|].
    assert (D : stub_result tr_string C103_v1 = Ok C103_name) by (vm_compute; reflexivity). rewrite D. reflexivity.
  - unfold typed_call. cbn [value_of].
    replace (stub_pay name_table _ _) with (Ok C103_p2) by (vm_compute; reflexivity).
    exists C103_c, 1, 3, (SNext C103_v2). split; [exact Rc|]. split; [exact Fc|]. split; [vm_compute; tauto|]. split; [rewrite G1; left; reflexivity|].
    assert (D : stub_result tr_string C103_v2 = Ok C103_hello) by (vm_compute; reflexivity). rewrite D. reflexivity.
Qed.
Print Assumptions C103_typed_call.
Print Assumptions C103_typed_call_returns.
Print Assumptions C103_new_customer.
Print Assumptions C103_three_modules.
