(** C58: adapters between monos and fluxes. *)
From Verif Require Import Base MonoModel MonoFacts MonoObserve FluxModel FluxFacts AdapterModel.
From Verif Require MonoProps FluxProps.

(** A world (source, code and other goroutines) that leaves the adapter's
    observations alone. *)
Record fworld {V E O C St} (source : nat -> list (fact V E O C)) (code : C -> list (fevent V E O) -> St -> option (St * list (fact V E O C))) (threads : list (list (fact V E O C))) : Prop := {
  fw_source : forall s, Forall FluxProps.silent (source s);
  fw_code : forall k t st st' l, code k t st = Some (st', l) -> Forall FluxProps.silent l;
  fw_threads : Forall (Forall FluxProps.silent) threads }.
Record mworld {V E O C St} (source : nat -> list (mact V E O C)) (code : C -> list (mevent V E O) -> St -> option (St * list (mact V E O C))) (threads : list (list (mact V E O C))) : Prop := {
  mw_source : forall s, Forall MonoProps.silent (source s);
  mw_code : forall k t st st' l, code k t st = Some (st', l) -> Forall MonoProps.silent l;
  mw_threads : Forall (Forall MonoProps.silent) threads }.

Lemma f2m_observes V E C : FluxProps.observes {| FluxProps.im_next := fun v => [CSuccess v]; FluxProps.im_complete := []; FluxProps.im_error := fun e => [CError e]; FluxProps.im_finally := fun _ => [] |} (@flux_to_mono V E C).
Proof. constructor; cbn; intros f Hf; try discriminate; injection Hf as <-; intros; exists []; auto. Qed.
Lemma f2v_observes V E C : FluxProps.observes {| FluxProps.im_next := fun _ => []; FluxProps.im_complete := [CSuccess tt]; FluxProps.im_error := fun e => [CError e]; FluxProps.im_finally := fun _ => [] |} (@flux_to_void V E C).
Proof. constructor; cbn; intros f Hf; try discriminate; injection Hf as <-; intros; exists []; auto. Qed.
Lemma m2f_observes V E C : mobserves {| mi_success := fun v => [KNext v; KComplete]; mi_error := fun e => [KError e]; mi_finally := fun _ => [] |} (@mono_to_flux V E C).
Proof. constructor; cbn; intros f Hf; try discriminate; injection Hf as <-; intros; exists []; auto. Qed.

(** The calls made on the sink are an image of what was delivered. *)
Lemma calls_of_delivered V E O D (im : FluxProps.image V E O) (t : list (fevent V E O)) (d : fobs V E -> list D) (up : O -> D) :
  (forall v, map up (FluxProps.im_next im v) = d (ONext v)) -> map up (FluxProps.im_complete im) = d OComplete ->
  (forall e, map up (FluxProps.im_error im e) = d (OError e)) -> (forall g, FluxProps.im_finally im g = []) ->
  map up (FluxProps.expected im t) = flat_map d (delivered 0 t).
Proof.
  intros H1 H2 H3 H4. unfold FluxProps.expected, delivered. induction t as [|ev t IH]; [reflexivity|]. cbn [flat_map]. rewrite map_app, flat_map_app, IH. f_equal.
  destruct ev as [| [|s] v|[|s]|[|s] e| |[|s] g'| | | | | | | |]; cbn; rewrite ?app_nil_r, ?H4; auto.
Qed.

(** The mono gets the first value of the flux, or its error if there was no
    value before it; nothing from an empty flux. *)
Theorem C58_flux_to_mono :
  forall V E C St wasm source code (st : St) threads sched,
    fworld source code threads ->
    let up : fconf V E (mcall V E) C St := frun wasm source code (0 :: 0 :: sched)%nat (finit st ([FSubscribe flux_to_mono] :: threads)) in
    fc_stack up = [] ->
  forall O C' St' source' code' (st' : St') threads' sched' s m,
    let down : mconf V E O C' St' := mrun source' code' sched' (minit st' threads') in
    mc_stack down = [] -> nth_error (mc_subs down) s = Some m -> h_success (ms_h m) <> None -> h_error (ms_h m) <> None ->
    calls s (mc_trace down) = FluxProps.observed (fc_trace up) ->
    outcomes s (mc_trace down) =
      match first (fcalls 0 (fc_trace up)) with Some (KNext v) => [inl v] | Some (KError e) => [inr e] | _ => [] end.
Proof.
  intros V E C St wasm source code st threads sched [W1 W2 W3] up Hup O C' St' source' code' st' threads' sched' s m down Hdown Hm H1 H2 Hc.
  destruct (FluxProps.flux_observed _ _ (f2m_observes V E C) wasm source code W1 W2 st threads sched W3) as ((mu & Hmu & Hh) & Ho).
  fold up in Hmu, Ho. specialize (Ho Hup).
  pose proof (FluxProps.C51_effective_calls_delivered _ _ _ _ _ wasm source code st ([FSubscribe flux_to_mono] :: threads) (0 :: 0 :: sched)%nat 0%nat mu Hmu) as D.
  cbv zeta in D. fold up in D. rewrite Hh in D.
  pose proof (MonoProps.C49_first_call_decides _ _ _ _ _ source' code' st' threads' sched' s m Hm Hdown) as F. cbv zeta in F. fold down in F.
  rewrite Hc, Ho in F.
  rewrite <- (map_id (FluxProps.expected _ _)) in F.
  rewrite (calls_of_delivered V E _ _ _ (fc_trace up) (fun o => match o with ONext v => [CSuccess v] | OError e => [CError e] | _ => [] end)) in F by reflexivity.
  rewrite D in F. revert F.
  destruct (fcalls 0 (fc_trace up)) as [|k ks]; [intros [F _]; exact F|]. cbn [effective first].
  destruct k; cbn; intros [F _]; rewrite F; cbn; destruct (h_success (ms_h m)); destruct (h_error (ms_h m)); congruence.
Qed.
(** The void mono succeeds when the flux completes, whatever the values, and
    fails when it fails. *)
Theorem C58_flux_to_void :
  forall V E C St wasm source code (st : St) threads sched,
    fworld source code threads ->
    let up : fconf V E (mcall unit E) C St := frun wasm source code (0 :: 0 :: sched)%nat (finit st ([FSubscribe flux_to_void] :: threads)) in
    fc_stack up = [] ->
  forall O C' St' source' code' (st' : St') threads' sched' s m,
    let down : mconf unit E O C' St' := mrun source' code' sched' (minit st' threads') in
    mc_stack down = [] -> nth_error (mc_subs down) s = Some m -> h_success (ms_h m) <> None -> h_error (ms_h m) <> None ->
    calls s (mc_trace down) = FluxProps.observed (fc_trace up) ->
    outcomes s (mc_trace down) =
      match terminal (fcalls 0 (fc_trace up)) with Some KComplete => [inl tt] | Some (KError e) => [inr e] | _ => [] end.
Proof.
  intros V E C St wasm source code st threads sched [W1 W2 W3] up Hup O C' St' source' code' st' threads' sched' s m down Hdown Hm H1 H2 Hc.
  destruct (FluxProps.flux_observed _ _ (f2v_observes V E C) wasm source code W1 W2 st threads sched W3) as ((mu & Hmu & Hh) & Ho).
  fold up in Hmu, Ho. specialize (Ho Hup).
  pose proof (FluxProps.C51_effective_calls_delivered _ _ _ _ _ wasm source code st ([FSubscribe flux_to_void] :: threads) (0 :: 0 :: sched)%nat 0%nat mu Hmu) as D.
  cbv zeta in D. fold up in D. rewrite Hh in D.
  pose proof (MonoProps.C49_first_call_decides _ _ _ _ _ source' code' st' threads' sched' s m Hm Hdown) as F. cbv zeta in F. fold down in F.
  rewrite Hc, Ho in F.
  rewrite <- (map_id (FluxProps.expected _ _)) in F.
  rewrite (calls_of_delivered V E _ _ _ (fc_trace up) (fun o => match o with OComplete => [CSuccess tt] | OError e => [CError e] | _ => [] end)) in F by reflexivity.
  rewrite D in F. revert F. clear - H1 H2.
  induction (fcalls 0 (fc_trace up)) as [|k ks IH]; [intros [F _]; exact F|]. cbn [effective].
  destruct k; cbn [is_term flat_map visible flux_to_void fh_next fh_complete fh_error app first terminal find]; try exact IH;
    cbn; intros [F _]; rewrite F; cbn; destruct (h_success (ms_h m)); destruct (h_error (ms_h m)); congruence.
Qed.
(** The flux delivers the value and completes, or fails; nothing if the mono is
    cancelled or has no outcome. *)
Theorem C58_mono_to_flux :
  forall V E C St source code (st : St) threads sched,
    mworld source code threads ->
    let up : mconf V E (fcall V E) C St := mrun source code (0 :: 0 :: sched)%nat (minit st ([ASubscribe mono_to_flux] :: threads)) in
    mc_stack up = [] ->
  forall O C' St' wasm' source' code' (st' : St') threads' sched' s m,
    let down : fconf V E O C' St' := frun wasm' source' code' sched' (finit st' threads') in
    nth_error (fc_subs down) s = Some m -> fh_next (fs_h m) <> None -> fh_complete (fs_h m) <> None -> fh_error (fs_h m) <> None ->
    fcalls s (fc_trace down) = MonoProps.observed (mc_trace up) ->
    delivered s (fc_trace down) =
      match first (calls 0 (mc_trace up)) with Some (CSuccess v) => [ONext v; OComplete] | Some (CError e) => [OError e] | _ => [] end.
Proof.
  intros V E C St source code st threads sched [W1 W2 W3] up Hup O C' St' wasm' source' code' st' threads' sched' s m down Hm H1 H2 H3 Hc.
  destruct (mono_observed _ _ (m2f_observes V E C) source code W1 W2 st threads sched W3) as ((mu & Hmu & Hh) & Ho).
  fold up in Hmu, Ho. specialize (Ho Hup).
  pose proof (FluxProps.C51_effective_calls_delivered _ _ _ _ _ wasm' source' code' st' threads' sched' s m Hm) as D. cbv zeta in D. fold down in D.
  pose proof (MonoProps.C49_first_call_decides _ _ _ _ _ source code st ([ASubscribe mono_to_flux] :: threads) (0 :: 0 :: sched)%nat 0%nat mu Hmu Hup) as F. cbv zeta in F. fold up in F.
  assert (X : mexpected {| mi_success := fun v : V => [KNext v; KComplete]; mi_error := fun e : E => [KError e]; mi_finally := fun _ => [] |} (mc_trace up) =
              flat_map (fun r => match r with inl v => [KNext v; KComplete] | inr e => [KError e] end) (outcomes 0 (mc_trace up))).
  { clear. unfold mexpected, outcomes. induction (mc_trace up) as [|ev t IH]; [reflexivity|]. cbn [flat_map]. rewrite flat_map_app, IH. f_equal.
    destruct ev as [| [|j] v|[|j] e|[|j] g| | | | |]; reflexivity. }
  rewrite Hc, Ho, X in D. rewrite D. destruct (calls 0 (mc_trace up)) as [|k ks]; destruct F as [F _]; rewrite F; [reflexivity|].
  rewrite Hh. cbn [first]. destruct k; cbn [call_outcome mono_to_flux h_success h_error flat_map app effective is_term visible];
    destruct (fh_next (fs_h m)); try congruence; destruct (fh_complete (fs_h m)); try congruence; destruct (fh_error (fs_h m)); try congruence; reflexivity.
Qed.
Definition mnocode {V E O} (c : Empty_set) (_ : list (mevent V E O)) (_ : unit) : option (unit * list (mact V E O Empty_set)) := match c with end.
Definition fnocode {V E O} (c : Empty_set) (_ : list (fevent V E O)) (_ : unit) : option (unit * list (fact V E O Empty_set)) := match c with end.
Definition msee {A} : option (list (mevent N N N) -> A -> list (mact N N N Empty_set)) := Some (fun _ _ => []).
(** A flux 3, 4, completion turned into a mono; and the call sequence it makes
    on the mono's sink. *)
Example C58_example :
  let up := frun false (fun s => [FCall s (KNext 3); FCall s (KNext 4); FCall s KComplete]) fnocode (repeat 0%nat 20) (finit tt [[FSubscribe flux_to_mono : fact N N _ Empty_set]]) in
  let down := mrun (fun s => map (ACall s) (FluxProps.observed (fc_trace up))) mnocode (repeat 0%nat 20) (minit tt [[ASubscribe (Handlers msee msee None)]]) in
  fc_stack up = [] /\ mc_stack down = [] /\ calls 0 (mc_trace down) = FluxProps.observed (fc_trace up) /\
  FluxProps.observed (fc_trace up) = [CSuccess 3; CSuccess 4] /\ outcomes 0 (mc_trace down) = [inl 3].
Proof. vm_compute. repeat split. Qed.
(** The same flux turned into a void mono; and a mono with value 8 into a flux. *)
Example C58_example_void :
  let up := frun true (fun s => [FCall s (KNext 3); FCall s (KNext 4); FCall s KComplete]) fnocode (repeat 0%nat 20) (finit tt [[FSubscribe flux_to_void : fact N N _ Empty_set]]) in
  fc_stack up = [] /\ FluxProps.observed (fc_trace up) = [CSuccess tt] /\ terminal (fcalls 0 (fc_trace up)) = Some KComplete.
Proof. vm_compute. repeat split. Qed.
Definition fsee {A} : option (list (fevent N N N) -> A -> list (fact N N N Empty_set)) := Some (fun _ _ => []).
Example C58_example_flux :
  let up := mrun (fun s => [ACall s (CSuccess 8); ACall s (CError 1)]) mnocode (repeat 0%nat 20) (minit tt [[ASubscribe mono_to_flux : mact N N _ Empty_set]]) in
  let down := frun false (fun s => map (FCall s) (MonoProps.observed (mc_trace up))) fnocode (repeat 0%nat 20)
    (finit tt [[FSubscribe (FHandlers fsee (Some (fun _ => [])) fsee None None false)]]) in
  mc_stack up = [] /\ fcalls 0 (fc_trace down) = MonoProps.observed (mc_trace up) /\
  MonoProps.observed (mc_trace up) = [KNext 8; KComplete] /\ delivered 0 (fc_trace down) = [ONext 8; OComplete].
Proof. vm_compute. repeat split. Qed.
Print Assumptions C58_flux_to_mono.
Print Assumptions C58_flux_to_void.
Print Assumptions C58_mono_to_flux.
