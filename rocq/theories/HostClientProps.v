(** C102: clients that a host makes for its guest. *)
From Verif Require Import Base BaseFacts FramesModel FramesProps InvokeModel InvokeProofs InvokeProps LookupModel
  HandlerModel HandlerCallProps JointModel JointFacts JointProps WasmEndModel WasmJointModel WasmJointFacts WasmJointProps MeshCallProps HostClientModel.
Local Ltac Zify.zify_post_hook ::= Z.div_mod_to_equations.

(** *** Specification.  The host process named the operations of kind [k] in the
    order in which the guest registered them. *)
Definition same_order (k : kind) (own exported : list reg_call) : Prop :=
  exists more, map fst (exports_of k exported) = imports_of k own ++ more.
(** A handler that the guest registered for single calls of [i] answered [k]. *)
Definition answered_by_name (exported : list reg_call) (behaves : N -> pay -> pay + bytes -> Prop) (i : info) (p : pay) (k : scall) : Prop :=
  exists h r, In (CExport RR i h) exported /\ behaves h {| py_data := py_data p; py_meta := skipn 8 (py_meta p) |} r /\ k = match r with inl v => SNext v | inr e => SError e end.

Lemma own_position : forall own later k i, len own < 2 ^ 32 - 1 -> exists n, instance_import own k i = N.of_nat n /\ nth_error (imports_of k (own ++ CImport k i :: later)) n = Some i /\ N.of_nat n < 2 ^ 32.
Proof.
  intros own later k i L. destruct (import_later own k i later) as (n & E & Hn); [lia|]. exists n. split; [exact E|]. split; [exact Hn|].
  destruct (import_position own k i) as (n' & E' & Hn'); [lia|]. assert (n' = n) by lia. subst n'.
  assert (n < List.length (imports_of k (own ++ [CImport k i])))%nat by (apply nth_error_Some; congruence).
  pose proof (len_imports k (own ++ [CImport k i])) as Le. rewrite len_app, len_cons, len_nil in Le. unfold len in *. lia.
Qed.
(** If the order is the same, what comes back of a call is an answer of a handler
    registered for the operation that the client was made for; and there is one
    once the guest has answered. *)
Theorem C102_same_order_by_name :
  forall exported imported sb behaves room, len exported < 2 ^ 32 ->
  forall own i later, len own < 2 ^ 32 - 1 -> same_order RR (own ++ CImport RR i :: later) exported ->
  forall j, wruns exported imported sb behaves room j -> fits room j ->
  forall o sid p rest input, py_meta p = be 4 (instance_import own RR i) ++ rest -> 4 <= len rest ->
  In (HCalled o RR sid p input) (trace_of false j) ->
  (forall k, In k (got o (trace_of false j)) -> answered_by_name exported (behaves true) i p k) /\
  (In (HSubscribed o) (trace_of false j) -> quiet false j -> exists k, answered_by_name exported (behaves true) i p k /\ hd_error (got o (trace_of false j)) = Some k).
Proof.
  intros exported imported sb behaves room L own i later Lo (more & So) j R U o sid p rest input Em Hr Hc.
  destruct (own_position own later RR i Lo) as (n & E & Hn & Ln). rewrite E in Em.
  assert (X : exists h, nth_error (exports_of RR exported) n = Some (i, h)).
  { assert (Y : nth_error (map fst (exports_of RR exported)) n = Some i). { rewrite So, nth_error_app1; [exact Hn|]. apply nth_error_Some. congruence. }
    rewrite nth_error_map in Y. destruct (nth_error (exports_of RR exported) n) as [[i' h]|]; [|discriminate Y]. cbn in Y. injection Y as ->. eauto. }
  destruct X as (h & X). assert (T : forall k, wasm_outcome exported imported true (behaves true) p k -> answered_by_name exported (behaves true) i p k).
  { intros k W. destruct p as [data meta]. cbn [py_meta] in Em. subst meta.
    destruct (host_call_outcome exported imported (behaves true) (N.of_nat n) data rest i h k Hr Ln) as (r & O1 & O2); [now rewrite Nat2N.id|exact W|].
    exists h, r. split; [exact (export_in _ _ _ _ _ X)|]. split; [exact O1|exact O2]. }
  split.
  - intros k Hk. apply T. exact (C99_only_the_handlers_outcome exported imported sb behaves room L j R U false o sid p input k Hc Hk).
  - intros Hs Q. destruct (C99_call_answered exported imported sb behaves room L j R U false o sid p input Hc Hs Q) as (k & W & G & _). eauto.
Qed.

(** The guest of C99; the host names its operations in the guest's order, or only
    the second one. *)
Definition C102_exports : list reg_call := [CExport RR ([97], [98]) 10; CExport RS ([97], [98]) 21; CExport RR ([97], [99]) 12].
Definition C102_behaves (c : bool) (h : N) (p : pay) (r : pay + bytes) : Prop := r = inl {| py_data := h :: py_data p; py_meta := py_meta p |}.
Definition C102_do := w_do C102_exports (fun _ _ => None).
Definition C102_get := w_get C102_exports (fun _ _ => None).
Definition C102_pay (own : list reg_call) : pay := {| py_data := [5]; py_meta := be 4 (instance_import own RR ([97], [99])) ++ [0; 0; 0; 0] |}.
Definition C102_run (p : pay) (v : pay) : joint :=
  C102_get false (C99_reply true 2 (inl v) (C102_do true (XJob 0) (C102_get true (C102_do false (XSubscribe 0) (C102_do false (XCall RR p false) joint_init))))).
Definition C102_first := C102_run (C102_pay [CImport RR ([97], [98])]) {| py_data := [12; 5]; py_meta := [] |}.
Definition C102_second := C102_run (C102_pay []) {| py_data := [10; 5]; py_meta := [] |}.
Definition C102_runs := wruns C102_exports (fun _ _ => None) (fun _ _ => true) C102_behaves C99_room.
Example C102_example :
  same_order RR ([CImport RR ([97], [98])] ++ CImport RR ([97], [99]) :: [CImport RR ([97], [98])]) C102_exports /\
  C102_runs C102_first /\ fits C99_room C102_first /\ quiet false C102_first /\
  In (HCalled 0 RR 2 (C102_pay [CImport RR ([97], [98])]) false) (trace_of false C102_first) /\ In (HSubscribed 0) (trace_of false C102_first) /\
  got 0 (trace_of false C102_first) = [SNext {| py_data := [12; 5]; py_meta := [] |}].
Proof.
  split; [exists []; reflexivity|]. split.
  { change (w_runs C102_exports (fun _ _ => None) C102_behaves C102_first). unfold C102_first, C102_run, C102_get, C102_do.
    w_act. eapply (w_answered _ _ _ true 2 12 {| py_data := [5]; py_meta := [] |}); [vm_compute; tauto|reflexivity|]. do 4 w_act. constructor. }
  split; [w_fits C102_first|]. split; [|vm_compute; tauto].
  split; [intros []; vm_compute; reflexivity|]. split; [vm_compute; reflexivity|]. intros sid h p H.
  assert (X : sid = 2). { revert H. let l := eval vm_compute in (trace_of (negb false) C102_first) in assert (E : trace_of (negb false) C102_first = l) by (vm_compute; reflexivity); rewrite E; clear E.
    intros H. cbn [In] in H. repeat (destruct H as [H|H]; [try discriminate H; injection H; congruence|]). destruct H. }
  subst sid. exists (inl {| py_data := [12; 5]; py_meta := [] |}). vm_compute. tauto.
Qed.
(** Otherwise it may be an answer of a handler registered for another operation,
    although the guest exports the one asked for. *)
Theorem C102_by_name_refuted :
  C102_runs C102_second /\ fits C99_room C102_second /\ In (CExport RR ([97], [99]) 12) C102_exports /\
  In (HCalled 0 RR 2 (C102_pay []) false) (trace_of false C102_second) /\
  In (SNext {| py_data := [10; 5]; py_meta := [] |}) (got 0 (trace_of false C102_second)) /\
  ~ answered_by_name C102_exports (C102_behaves true) ([97], [99]) (C102_pay []) (SNext {| py_data := [10; 5]; py_meta := [] |}).
Proof.
  split.
  { change (w_runs C102_exports (fun _ _ => None) C102_behaves C102_second). unfold C102_second, C102_run, C102_get, C102_do.
    w_act. eapply (w_answered _ _ _ true 2 10 {| py_data := [5]; py_meta := [] |}); [vm_compute; tauto|reflexivity|]. do 4 w_act. constructor. }
  split; [w_fits C102_second|]. split; [cbn; tauto|]. split; [vm_compute; tauto|]. split; [vm_compute; tauto|].
  intros (h & r & H & B & E). unfold C102_behaves in B. subst r. assert (h = 12). { cbn [C102_exports In] in H. repeat (destruct H as [H|H]; [try discriminate H; injection H; congruence|]). destruct H. }
  subst h. discriminate E.
Qed.
Print Assumptions C102_same_order_by_name.
Print Assumptions C102_by_name_refuted.
