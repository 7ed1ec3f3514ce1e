(** Facts about one end of a connection: the table of streams and the ids. *)
From Verif Require Import Base BaseFacts FramesModel WasmModel WasmProofs InvokeModel LookupModel LookupProofs HandlerModel.

(** ** The table as a list of entries *)
Fixpoint chain (fuel : nat) (h : list node) (p : option nat) : list stream :=
  match fuel, p with
  | S fuel', Some a => match nth_error h a with Some n => n_stream n :: chain fuel' h (n_next n) | None => [] end
  | _, _ => []
  end.
Definition entries (l : lookup) : list stream := chain (List.length (lk_heap l)) (lk_heap l) (lk_head l).
Definition tab_ok (l : lookup) : Prop := exists t, refines l t.
Lemma chain_lseg : forall h l fuel p pred, lseg h p pred l None -> (List.length l <= fuel)%nat -> chain fuel h p = map strm l.
Proof.
  induction l as [|[[a s] lk] l IH]; intros fuel p pred H Hf.
  - cbn in H. subst p. destruct fuel; reflexivity.
  - cbn [lseg] in H. destruct H as (-> & n & H1 & H2 & H3 & H4). cbn [List.length] in Hf.
    destruct fuel as [|fuel]; [lia|]. cbn [chain map strm fst snd]. rewrite H1, H2. f_equal. apply (IH fuel _ (Some a)); [exact H4|lia].
Qed.
Lemma refines_entries : forall l t, refines l t -> entries l = t_stuck t ++ t_live t.
Proof.
  intros l t (st & li & H1 & _ & H3 & _ & _ & H6 & H7 & _). unfold entries. rewrite (chain_lseg _ _ _ _ _ H1 H3).
  now rewrite map_app, H6, H7.
Qed.
Lemma tab_init : tab_ok lookup_init.
Proof. exists table_init. apply refines_init. Qed.
Lemma refines_live : forall l t, refines l t -> t_stuck t = [] -> t_live t = [].
Proof.
  intros l t (st & li & _ & _ & _ & _ & H & H1 & H2 & _) E. rewrite <- H1 in E. destruct st; [|discriminate].
  rewrite <- H2, (H eq_refl). reflexivity.
Qed.
Lemma tab_add : forall l s, tab_ok l -> tab_ok (lookup_add s l) /\ entries (lookup_add s l) = entries l ++ [s].
Proof.
  intros l s (t & R). assert (R' := refines_add l t s R). split; [now exists (table_add s t)|].
  rewrite (refines_entries _ _ R), (refines_entries _ _ R'). unfold table_add.
  destruct (t_stuck t) as [|x st] eqn:E.
  - rewrite (refines_live l t R E). reflexivity.
  - cbn [t_stuck t_live]. now rewrite <- app_assoc.
Qed.
Lemma delete_first_incl : forall id l, incl (delete_first id l) l.
Proof.
  induction l as [|s l IH]; intros x H; [exact H|]. cbn in H. destruct (has_id id s); [now right|].
  destruct H as [<-|H]; [now left|right; auto].
Qed.
Lemma delete_first_other : forall id l x, In x l -> fst x <> id -> In x (delete_first id l).
Proof.
  induction l as [|s l IH]; intros x H Hx; [exact H|]. cbn. destruct (has_id id s) eqn:E.
  - destruct H as [<-|H]; [|exact H]. unfold has_id in E. apply N.eqb_eq in E. contradiction.
  - destruct H as [<-|H]; [now left|right; auto].
Qed.
Lemma tab_remove : forall l id, tab_ok l -> tab_ok (lookup_remove id l) /\
  incl (entries (lookup_remove id l)) (entries l) /\ forall x, In x (entries l) -> fst x <> id -> In x (entries (lookup_remove id l)).
Proof.
  intros l id (t & R). assert (R' := refines_remove l t id R). split; [now exists (table_remove id t)|].
  rewrite (refines_entries _ _ R), (refines_entries _ _ R').
  unfold table_remove. destruct (existsb (has_id id) (t_stuck t)).
  - destruct (t_live t) as [|s li]; [cbn [t_stuck t_live]; split; auto using incl_refl|].
    destruct (at_end id (t_stuck t)); cbn [t_stuck t_live]; [rewrite <- app_assoc|]; split; auto using incl_refl.
  - destruct (existsb (has_id id) (t_live t)); cbn [t_stuck t_live]; [|split; auto using incl_refl]. split.
    + apply incl_app; [now apply incl_appl, incl_refl|]. apply incl_appr. apply delete_first_incl.
    + intros x H Hx. apply in_app_iff in H. apply in_app_iff. destruct H as [H|H]; [now left|right]. now apply delete_first_other.
Qed.
Lemma tab_get : forall l id, tab_ok l -> lookup_get l id = List.find (has_id id) (entries l).
Proof. intros l id (t & R). rewrite (refines_get l t id R), (refines_entries l t R). reflexivity. Qed.
Lemma tab_get_in : forall l id o, tab_ok l -> In (id, o) (entries l) ->
  exists o', lookup_get l id = Some (id, o') /\ In (id, o') (entries l).
Proof.
  intros l id o T H. rewrite (tab_get l id T). destruct (List.find (has_id id) (entries l)) as [[i o']|] eqn:E.
  - apply find_some in E. destruct E as [E1 E2]. unfold has_id in E2. cbn in E2. apply N.eqb_eq in E2. subst i. eauto.
  - exfalso. assert (X := find_none _ _ E _ H). unfold has_id in X. cbn in X. now rewrite N.eqb_refl in X.
Qed.
Lemma tab_get_some : forall l id s, tab_ok l -> lookup_get l id = Some s -> In (id, snd s) (entries l).
Proof.
  intros l id [i o] T H. rewrite (tab_get l id T) in H. apply find_some in H. destruct H as [E1 E2].
  unfold has_id in E2. cbn in E2. apply N.eqb_eq in E2. now subst i.
Qed.

(** ** Stream ids *)
Definition local_id (x : sobj) : option N :=
  match x with OMono r => Some (rq_stream r) | OFlux s => Some (rq_stream (sf_req s)) | OReq _ _ _ _ => None end.
Definition obj_id (x : sobj) : N :=
  match x with OMono r => rq_stream r | OFlux s => rq_stream (sf_req s) | OReq _ sid _ _ => sid end.
(** The id of the [p]-th call. *)
Definition nth_id (client : bool) (p : N) : N := if client then 2 * p + 1 else 2 * (p + 1).
Lemma next_id : forall (client : bool) p, p < 1073741823 ->
  exists b, (if client then client_next 2 p else server_next 2 p) = Some (p + 1, (nth_id client p, b)).
Proof.
  intros client p H. unfold nth_id. destruct client.
  - rewrite client_step by lia. rewrite N.mod_small by lia. eauto.
  - rewrite server_step by lia. rewrite N.mod_small by lia. eauto.
Qed.
Lemma nth_id_inj : forall client p q, nth_id client p = nth_id client q -> p = q.
Proof. intros [|] p q; unfold nth_id; lia. Qed.
Lemma nth_id_odd : forall client p, N.odd (nth_id client p) = client.
Proof.
  intros [|] p; unfold nth_id.
  - rewrite N.add_1_r, N.odd_succ, N.even_mul. reflexivity.
  - rewrite N.odd_mul. reflexivity.
Qed.

(** ** What every reachable state satisfies *)
Definition all_entries (e : ep) : list stream := entries (ep_guest e) ++ entries (ep_host e).
Definition registered (sid o : N) (e : ep) : Prop := In (sid, o) (entries (ep_streams sid e)).
Record good (client : bool) (e : ep) : Prop := {
  g_loc : forall o x i, ep_obj o e = Some x -> local_id x = Some i -> exists p, p < ep_ids e /\ i = nth_id client p;
  g_inj : forall o o' x x' i, ep_obj o e = Some x -> ep_obj o' e = Some x' -> local_id x = Some i -> local_id x' = Some i -> o = o';
  g_peer : forall o k sid a b, ep_obj o e = Some (OReq k sid a b) -> N.odd sid = negb client;
  g_jobs : forall k r, In (JHandle k r) (ep_jobs e) -> N.odd (rq_stream r) = negb client;
  g_ok : tab_ok (ep_guest e) /\ tab_ok (ep_host e);
  g_ent : forall sid o, In (sid, o) (all_entries e) -> exists x, ep_obj o e = Some x /\ obj_id x = sid }.
(** The peer opens streams with ids of its own parity. *)
Definition request_ids (l : list hop) : list N :=
  flat_map (fun x => match x with XFrame (FRequest r) => [rq_stream r] | _ => [] end) l.
Definition is_call (x : hop) : bool := match x with XCall _ _ _ => true | _ => false end.
Definition calls (l : list hop) : N := len (filter is_call l).
Definition proper_peer (client : bool) (l : list hop) : Prop := Forall (fun i => N.odd i = negb client) (request_ids l).

Lemma skipn_S_tl : forall A n (l : list A), skipn (S n) l = tl (skipn n l).
Proof. induction n as [|n IH]; intros [|x l]; [reflexivity..|]. exact (IH l). Qed.
Lemma len_to_nat : forall A (l : list A), N.to_nat (len l) = List.length l.
Proof. intros. unfold len. apply Nat2N.id. Qed.
Lemma obj_new : forall o x e y, ep_obj o (ep_new x e) = Some y -> ep_obj o e = Some y \/ (o = len (ep_objs e) /\ y = x).
Proof.
  intros o x e y H. unfold ep_obj in *. cbn [ep_new ep_objs] in H.
  destruct (lt_dec (N.to_nat o) (List.length (ep_objs e))) as [L|L].
  - rewrite nth_error_app1 in H by exact L. now left.
  - rewrite nth_error_app2 in H by lia. destruct (N.to_nat o - List.length (ep_objs e))%nat as [|m] eqn:E; [|destruct m; discriminate].
    cbn in H. injection H as <-. right. split; [|reflexivity]. unfold len. lia.
Qed.
Lemma obj_new_old : forall o x e y, ep_obj o e = Some y -> ep_obj o (ep_new x e) = Some y.
Proof. intros o x e y H. unfold ep_obj in *. cbn [ep_new ep_objs]. rewrite nth_error_app1; [exact H|]. apply nth_error_Some. congruence. Qed.
Lemma obj_new_new : forall x e, ep_obj (len (ep_objs e)) (ep_new x e) = Some x.
Proof. intros x e. unfold ep_obj. cbn [ep_new ep_objs]. rewrite len_to_nat, nth_error_app2, Nat.sub_diag by lia. reflexivity. Qed.
Lemma obj_lt : forall o e x, ep_obj o e = Some x -> o < len (ep_objs e).
Proof. intros o e x H. unfold ep_obj in H. assert (N.to_nat o < List.length (ep_objs e))%nat by (apply nth_error_Some; congruence). unfold len. lia. Qed.
Lemma obj_set_same : forall o x e y, ep_obj o e = Some y -> ep_obj o (ep_set o x e) = Some x.
Proof. intros o x e y H. unfold ep_obj in *. cbn [ep_set ep_objs]. now rewrite (nth_upd_same _ _ _ _ y H). Qed.
Lemma obj_set_other : forall o x e o', o <> o' -> ep_obj o' (ep_set o x e) = ep_obj o' e.
Proof. intros o x e o' H. unfold ep_obj. cbn [ep_set ep_objs]. apply nth_upd_other. lia. Qed.

Lemma in_all : forall s e, In s (all_entries e) <-> In s (entries (ep_guest e)) \/ In s (entries (ep_host e)).
Proof. intros. apply in_app_iff. Qed.
Lemma registered_all : forall sid o e, registered sid o e -> In (sid, o) (all_entries e).
Proof. intros sid o e H. apply in_all. unfold registered, ep_streams in H. destruct (N.odd sid); auto. Qed.

Lemma good_init : forall client, good client ep_init.
Proof.
  intros client. constructor.
  1-3: intros o; unfold ep_obj; cbn [ep_init ep_objs]; destruct (N.to_nat o); cbn; discriminate.
  - intros k r [].
  - split; apply tab_init.
  - intros sid o [].
Qed.
(** The primitive updates keep [good]. *)
Lemma good_emit : forall c ev e, good c e -> good c (ep_emit ev e).
Proof. intros c ev e [A B C D E F]. constructor; assumption. Qed.
Lemma good_job : forall c j e, good c e -> (forall k r, j = JHandle k r -> N.odd (rq_stream r) = negb c) -> good c (ep_job j e).
Proof.
  intros c j e [A B C D E F] H. constructor; try assumption. intros k r. cbn [ep_job ep_jobs]. rewrite in_app_iff.
  intros [X|[X|[]]]; [now apply (D k)|now apply (H k)].
Qed.
Lemma good_new : forall c x e, good c e ->
  (forall i, local_id x = Some i -> (exists p, p < ep_ids e /\ i = nth_id c p) /\ forall o y, ep_obj o e = Some y -> local_id y <> Some i) ->
  (forall k sid a b, x = OReq k sid a b -> N.odd sid = negb c) -> good c (ep_new x e).
Proof.
  intros c x e [A B C D E F] H1 H2. constructor; try assumption.
  - intros o y i Ho Hi. apply obj_new in Ho. destruct Ho as [Ho|[-> ->]]; [eauto|]. now apply H1.
  - intros o o' y y' i Ho Ho' Hi Hi'. apply obj_new in Ho. apply obj_new in Ho'.
    destruct Ho as [Ho|[-> ->]], Ho' as [Ho'|[-> ->]]; [eauto| | |reflexivity].
    + destruct (H1 i Hi') as [_ H]. now destruct (H o y Ho).
    + destruct (H1 i Hi) as [_ H]. now destruct (H o' y' Ho').
  - intros o k sid a b Ho. apply obj_new in Ho. destruct Ho as [Ho|[-> Ho]]; [eauto|]. symmetry in Ho. eauto.
  - intros sid o H. destruct (F sid o H) as (y & Hy & Hi). exists y. split; [now apply obj_new_old|exact Hi].
Qed.
Lemma good_set : forall c o x y e, good c e -> ep_obj o e = Some x -> local_id y = local_id x -> obj_id y = obj_id x -> good c (ep_set o y e).
Proof.
  intros c o x y e [A B C D E F] Hx Hl Hi.
  assert (Z : forall o' z, ep_obj o' (ep_set o y e) = Some z -> exists w, ep_obj o' e = Some w /\ local_id z = local_id w /\ obj_id z = obj_id w).
  { intros o' z Hz. destruct (N.eq_dec o o') as [<-|Ne].
    - rewrite (obj_set_same o y e x Hx) in Hz. injection Hz as <-. eauto.
    - rewrite obj_set_other in Hz by exact Ne. eauto. }
  constructor; try assumption.
  - intros o' z i Hz Hzi. destruct (Z o' z Hz) as (w & W1 & W2 & W3). apply (A o' w); congruence.
  - intros o1 o2 z1 z2 i Hz1 Hz2 Hi1 Hi2. destruct (Z o1 z1 Hz1) as (w1 & W1 & W2 & W3). destruct (Z o2 z2 Hz2) as (w2 & V1 & V2 & V3).
    apply (B o1 o2 w1 w2 i); congruence.
  - intros o' k sid a b Hz. destruct (Z o' _ Hz) as (w & W1 & W2 & W3). destruct w; cbn in W2, W3; try discriminate. subst. eauto.
  - intros sid o' H. destruct (F sid o' H) as (w & W1 & W2). destruct (N.eq_dec o o') as [<-|Ne].
    + exists y. split; [now apply (obj_set_same o y e x)|]. congruence.
    + exists w. rewrite obj_set_other by exact Ne. auto.
Qed.
Lemma good_on : forall c sid f e, good c e -> (forall l, tab_ok l -> tab_ok (f l)) ->
  (forall s, In s (entries (f (ep_streams sid e))) -> In s (entries (ep_streams sid e)) \/ exists x, ep_obj (snd s) e = Some x /\ obj_id x = fst s) ->
  good c (ep_on sid f e).
Proof.
  intros c sid f e [A B C D E F] Hok H. constructor; try assumption.
  - unfold ep_on. cbn [ep_guest ep_host]. destruct E. destruct (N.odd sid); auto.
  - intros i o Hi. apply in_all in Hi. unfold ep_on in Hi. cbn [ep_guest ep_host] in Hi. unfold ep_streams in H.
    change (ep_obj o (ep_on sid f e)) with (ep_obj o e). specialize (F i o). rewrite in_all in F. specialize (H (i, o)). cbn [fst snd] in H.
    destruct (N.odd sid); destruct Hi as [Hi|Hi]; auto; destruct (H Hi); auto.
Qed.
Lemma good_register : forall c sid o x e, good c e -> ep_obj o e = Some x -> obj_id x = sid -> good c (register sid o e).
Proof.
  intros c sid o x e G Hx Hi. apply good_on; [exact G| |].
  - intros l Hl. now apply tab_add.
  - intros s Hs. assert (T : tab_ok (ep_streams sid e)) by (unfold ep_streams; destruct G as [_ _ _ _ [? ?] _]; destruct (N.odd sid); assumption).
    destruct (tab_add _ (sid, o) T) as [_ W]. rewrite W, in_app_iff in Hs. destruct Hs as [Hs|[<-|[]]]; [now left|]. right. eauto.
Qed.
Lemma good_streams : forall c sid e, good c e -> tab_ok (ep_streams sid e).
Proof. intros c sid e [_ _ _ _ [? ?] _]. unfold ep_streams. destruct (N.odd sid); assumption. Qed.
Lemma good_remove : forall c sid e, good c e -> good c (remove_stream sid e).
Proof.
  intros c sid e G. apply good_on; [exact G| |].
  - intros l Hl. now apply tab_remove.
  - intros s Hs. left. destruct (tab_remove _ sid (good_streams c sid e G)) as (_ & W & _). now apply W.
Qed.
(** Changes that concern neither objects nor tables. *)
Lemma good_same : forall c e e', good c e -> ep_objs e' = ep_objs e -> ep_guest e' = ep_guest e -> ep_host e' = ep_host e ->
  ep_ids e <= ep_ids e' -> incl (ep_jobs e') (ep_jobs e) -> good c e'.
Proof.
  intros c e e' [A B C D E F] H1 H2 H3 H4 H5.
  assert (O : forall o, ep_obj o e' = ep_obj o e) by (intros o; unfold ep_obj; now rewrite H1).
  constructor.
  - intros o x i Hx Hi. rewrite O in Hx. destruct (A o x i Hx Hi) as (p & P1 & P2). exists p. split; [lia|exact P2].
  - intros o o' x x' i. rewrite !O. apply B.
  - intros o k sid a b. rewrite O. apply C.
  - intros k r H. apply (D k). auto.
  - now rewrite H2, H3.
  - intros sid o. unfold all_entries. rewrite H2, H3, O. apply F.
Qed.
Lemma get_registered : forall c sid o e, good c e -> get_stream sid e = Some o -> registered sid o e.
Proof.
  intros c sid o e G H. unfold get_stream in H. destruct (lookup_get (ep_streams sid e) sid) as [s|] eqn:E; [|discriminate].
  injection H as <-. now apply (tab_get_some _ _ s (good_streams c sid e G)).
Qed.
Lemma registered_get : forall c sid o e, good c e -> registered sid o e -> exists o', get_stream sid e = Some o' /\ registered sid o' e.
Proof.
  intros c sid o e G H. destruct (tab_get_in _ _ _ (good_streams c sid e G) H) as (o' & H1 & H2). exists o'. unfold get_stream. now rewrite H1.
Qed.
Lemma registered_obj : forall c sid o e, good c e -> registered sid o e -> exists x, ep_obj o e = Some x /\ obj_id x = sid.
Proof. intros c sid o e G H. apply (g_ent c e G). now apply registered_all. Qed.

Lemma good_stream_call : forall c o k e e', good c e -> stream_call o k e = Ok e' -> good c e'.
Proof.
  intros c o k e e' G H. unfold stream_call in H. destruct (ep_obj o e) as [[r|s|k' sid a b]|]; [| | |discriminate].
  - destruct k; injection H as <-; auto using good_emit.
  - destruct k; injection H as <-; auto using good_emit. apply good_emit, good_job; [exact G|discriminate].
  - destruct b; [|discriminate]. injection H as <-. auto using good_emit.
Qed.
Lemma bind_ok : forall A B (x : res A) (f : A -> res B) b, (y <- x ;; f y) = Ok b -> exists a, x = Ok a /\ f a = Ok b.
Proof. intros A B [a|m|] f b H; [eauto|discriminate|discriminate]. Qed.
Lemma good_handle_frame : forall c f e e', good c e -> (forall r, f = FRequest r -> N.odd (rq_stream r) = negb c) -> handle_frame f e = Ok e' -> good c e'.
Proof.
  intros c f e e' G P H. destruct f as [s|r|r|x|p|x]; cbn [handle_frame] in H.
  - destruct (ep_table e); [now injection H as <-|]. destruct (table_from_bytes (su_data s)); [| |discriminate]; injection H as <-.
    + apply (good_same c e); auto using incl_refl. apply N.le_refl.
    + auto using good_emit.
  - destruct (kind_of (rq_type r)).
    + injection H as <-. apply good_job; [exact G|]. intros k' r' E. injection E as <- <-. now apply P.
    + destruct (FrameTypeRequestN <=? rq_type r); [|now injection H as <-].
      destruct (get_stream (rq_stream r) e); [now injection H as <-|].
      injection H as <-. destruct (rq_type r =? FrameTypeRequestN); auto using good_emit.
  - destruct (get_stream (rn_stream r) e) as [o|]; [|now injection H as <-].
    destruct (ep_obj o e) as [[]|]; try discriminate; injection H as <-; (apply good_job; [exact G|discriminate]).
  - destruct (get_stream (cn_stream x) e) as [o|]; [|injection H as <-; auto using good_emit].
    apply bind_ok in H. destruct H as (e1 & H1 & H). injection H as <-. apply good_remove. eauto using good_stream_call.
  - destruct (get_stream (pl_stream p) e) as [o|]; [|injection H as <-; auto using good_emit].
    apply bind_ok in H. destruct H as (e1 & H1 & H).
    assert (G1 : good c e1). { destruct (pl_next p); [eauto using good_stream_call|now injection H1 as <-]. }
    destruct (pl_complete p); [|now injection H as <-]. apply bind_ok in H. destruct H as (e2 & H2 & H). injection H as <-.
    apply good_remove. eauto using good_stream_call.
  - destruct (get_stream (er_stream x) e) as [o|]; [|injection H as <-; auto using good_emit].
    apply bind_ok in H. destruct H as (e1 & H1 & H). apply bind_ok in H. destruct H as (e2 & H2 & H). injection H as <-.
    apply good_remove. eauto using good_stream_call.
Qed.

Section Good.
Variable reg : registry.
Variable subscribable : N -> bool.
Variable client : bool.
Notation hstep := (hstep reg subscribable client).
Notation hrun := (hrun reg subscribable client).

Lemma good_handle_request : forall k r e e', good client e -> N.odd (rq_stream r) = negb client ->
  handle_request reg subscribable k r e = Ok e' -> good client e'.
Proof.
  intros k r e e' G P H. unfold handle_request in H.
  destruct (len (rq_metadata r) <? 8); [injection H as <-; auto using good_emit|].
  destruct (do_get k reg (unbe (takeN 4 (rq_metadata r)))) as [h|]; [|injection H as <-; auto using good_emit].
  assert (N : forall k' a b, good client (register (rq_stream r) (len (ep_objs e)) (ep_new (OReq k' (rq_stream r) a b) e))).
  { intros k' a b. apply (good_register client _ _ (OReq k' (rq_stream r) a b)); [|apply obj_new_new|reflexivity].
    apply good_new; [exact G|discriminate|]. intros k0 sid a0 b0 E. injection E as _ <- _ _. exact P. }
  destruct k; [| |destruct (subscribable h); [|discriminate]..]; injection H as <-; auto using good_emit.
Qed.
Lemma good_step : forall x e e', good client e ->
  (is_call x = true -> ep_ids e < 1073741823) -> (forall r, x = XFrame (FRequest r) -> N.odd (rq_stream r) = negb client) ->
  hstep x e = Ok e' -> good client e'.
Proof.
  intros x e e' G C P H. destruct x as [k p input|o|o n|o|o ev|o|f|i]; cbn [HandlerModel.hstep] in H.
  - specialize (C eq_refl). unfold do_call in H. destruct (next_id client (ep_ids e) C) as (b & E). rewrite E in H. clear E.
    set (e1 := {| ep_ids := ep_ids e + 1; ep_guest := ep_guest e; ep_host := ep_host e; ep_table := ep_table e;
                  ep_objs := ep_objs e; ep_jobs := ep_jobs e; ep_trace := ep_trace e |}) in *.
    assert (G1 : good client e1). { apply (good_same client e); auto using incl_refl. cbn. lia. }
    assert (W : forall x, local_id x = Some (nth_id client (ep_ids e)) -> good client (ep_new x e1)).
    { intros x Hx. apply good_new; [exact G1| |].
      - intros i Hi. rewrite Hx in Hi. injection Hi as <-. split; [exists (ep_ids e); split; [cbn; lia|reflexivity]|].
        intros o y Hy Hl. change (ep_obj o e = Some y) in Hy. destruct (g_loc client e G o y _ Hy Hl) as (q & Q1 & Q2).
        apply nth_id_inj in Q2. lia.
      - intros k0 sid a b0 ->. discriminate Hx. }
    destruct k; injection H as <-; auto using good_emit.
  - destruct (ep_obj o e) as [[r|s|k sid a b]|] eqn:E; injection H as <-; try exact G; apply good_emit; eapply good_register; eauto.
  - destruct (ep_obj o e) as [[r|s|k sid a b]|] eqn:E; try (injection H as <-; exact G).
    + destruct (sf_request n s) as [s' l] eqn:Es. injection H as <-. apply good_emit.
      assert (rq_stream (sf_req s') = rq_stream (sf_req s)).
      { unfold sf_request in Es. destruct (sf_complete s); [now injection Es as <- _|]. destruct (sf_first s); injection Es as <- _; reflexivity. }
      apply (good_set client o (OFlux s)); auto; cbn; congruence.
    + destruct k; try (injection H as <-; exact G). destruct b; injection H as <-; auto using good_emit.
  - destruct (ep_obj o e) as [[r|s|k sid a b]|] eqn:E; try (injection H as <-; auto using good_emit).
    destruct k; try (injection H as <-; exact G). destruct b; injection H as <-; auto using good_emit.
  - destruct (ep_obj o e) as [[r|s|k sid a b]|] eqn:E; injection H as <-; auto using good_emit.
  - destruct (ep_obj o e) as [[r|s|k sid a b]|] eqn:E; try (injection H as <-; exact G).
    destruct k; injection H as <-; try exact G. apply (good_set client o (OReq RC sid a b)); auto.
  - apply (good_handle_frame client f (ep_emit [HRecv f] e)); auto using good_emit. intros r ->. now apply P.
  - destruct (nth_error (ep_jobs e) i) as [j|] eqn:E; [|now injection H as <-].
    set (e1 := {| ep_ids := ep_ids e; ep_guest := ep_guest e; ep_host := ep_host e; ep_table := ep_table e;
                  ep_objs := ep_objs e; ep_jobs := firstn i (ep_jobs e) ++ skipn (S i) (ep_jobs e); ep_trace := ep_trace e |}) in *.
    assert (G1 : good client e1).
    { apply (good_same client e); auto; [apply N.le_refl|]. cbn [e1 ep_jobs]. intros y Hy. apply in_app_iff in Hy.
      rewrite <- (firstn_skipn i (ep_jobs e)), in_app_iff. destruct Hy as [Hy|Hy]; [now left|right].
      rewrite skipn_S_tl in Hy. destruct (skipn i (ep_jobs e)); [destruct Hy|now right]. }
    destruct j as [k r|o n|o]; cbn [run_job] in H.
    + apply (good_handle_request k r e1); auto. apply (g_jobs client e G k). eapply nth_error_In; eauto.
    + unfold do_demand in H. destruct (ep_obj o e1) as [[r|s|k sid a b]|]; try discriminate.
      * destruct (sf_in s && negb (sf_first s)); [|discriminate]. injection H as <-. auto using good_emit.
      * destruct a; [|discriminate]. injection H as <-. auto using good_emit.
    + unfold settle in H. destruct (ep_obj o e1) as [[r|s|k sid a b]|] eqn:Eo; injection H as <-; try exact G1.
      apply good_emit, (good_set client o (OFlux s)); auto.
Qed.
(** The counter of ids. *)
Lemma stream_call_ids : forall o k e e', stream_call o k e = Ok e' -> ep_ids e' = ep_ids e.
Proof.
  intros o k e e' H. unfold stream_call in H. destruct (ep_obj o e) as [[r|s|k' sid a b]|]; [| | |discriminate].
  - destruct k; injection H as <-; reflexivity.
  - destruct k; injection H as <-; reflexivity.
  - destruct b; [|discriminate]. injection H as <-. reflexivity.
Qed.
Lemma step_ids : forall x e e', hstep x e = Ok e' -> (is_call x = true -> ep_ids e < 1073741823) -> ep_ids e' = ep_ids e + (if is_call x then 1 else 0).
Proof.
  intros x e e' H Hp. destruct x as [k p input|o|o n|o|o ev|o|f|i]; cbn [HandlerModel.hstep is_call] in *; rewrite ?N.add_0_r.
  - unfold do_call in H. destruct (next_id client (ep_ids e) (Hp eq_refl)) as (b & E). rewrite E in H. destruct k; injection H as <-; reflexivity.
  - destruct (ep_obj o e) as [[r|s|k sid a b]|]; injection H as <-; reflexivity.
  - destruct (ep_obj o e) as [[r|s|k sid a b]|]; try (injection H as <-; reflexivity).
    + destruct (sf_request n s). injection H as <-. reflexivity.
    + destruct k; try (injection H as <-; reflexivity). destruct b; injection H as <-; reflexivity.
  - destruct (ep_obj o e) as [[r|s|k sid a b]|]; try (injection H as <-; reflexivity).
    destruct k; try (injection H as <-; reflexivity). destruct b; injection H as <-; reflexivity.
  - destruct (ep_obj o e) as [[r|s|k sid a b]|]; injection H as <-; reflexivity.
  - destruct (ep_obj o e) as [[r|s|k sid a b]|]; try (injection H as <-; reflexivity). destruct k; injection H as <-; reflexivity.
  - change (ep_ids e) with (ep_ids (ep_emit [HRecv f] e)). set (e0 := ep_emit [HRecv f] e) in *. destruct f as [s|r|r|x|p|x]; cbn [handle_frame] in H.
    + destruct (ep_table e0); [now injection H as <-|]. destruct (table_from_bytes (su_data s)); [| |discriminate]; injection H as <-; reflexivity.
    + destruct (kind_of (rq_type r)); [injection H as <-; reflexivity|]. destruct (FrameTypeRequestN <=? rq_type r); [|now injection H as <-].
      destruct (get_stream (rq_stream r) e0); [now injection H as <-|]. injection H as <-. now destruct (rq_type r =? FrameTypeRequestN).
    + destruct (get_stream (rn_stream r) e0) as [o|]; [|now injection H as <-].
      destruct (ep_obj o e0) as [[]|]; try discriminate; injection H as <-; reflexivity.
    + destruct (get_stream (cn_stream x) e0) as [o|]; [|injection H as <-; reflexivity].
      apply bind_ok in H. destruct H as (e1 & H1 & H). injection H as <-. exact (stream_call_ids _ _ _ _ H1).
    + destruct (get_stream (pl_stream p) e0) as [o|]; [|injection H as <-; reflexivity].
      apply bind_ok in H. destruct H as (e1 & H1 & H).
      assert (G1 : ep_ids e1 = ep_ids e0). { destruct (pl_next p); [eauto using stream_call_ids|now injection H1 as <-]. }
      destruct (pl_complete p); [|now injection H as <-]. apply bind_ok in H. destruct H as (e2 & H2 & H). injection H as <-.
      apply stream_call_ids in H2. cbn [remove_stream ep_on ep_ids]. congruence.
    + destruct (get_stream (er_stream x) e0) as [o|]; [|injection H as <-; reflexivity].
      apply bind_ok in H. destruct H as (e1 & H1 & H). apply bind_ok in H. destruct H as (e2 & H2 & H). injection H as <-.
      cbn [remove_stream ep_on ep_ids]. apply stream_call_ids in H2. apply stream_call_ids in H1. congruence.
  - destruct (nth_error (ep_jobs e) i) as [j|]; [|now injection H as <-]. set (e1 := {| ep_ids := ep_ids e |}) in H.
    change (ep_ids e) with (ep_ids e1). destruct j as [k r|o n|o]; cbn [run_job] in H.
    + unfold handle_request in H. destruct (len (rq_metadata r) <? 8); [injection H as <-; reflexivity|].
      destruct (do_get k reg (unbe (takeN 4 (rq_metadata r)))) as [h|]; [|injection H as <-; reflexivity].
      destruct k; [| |destruct (subscribable h); [|discriminate]..]; injection H as <-; reflexivity.
    + unfold do_demand in H. destruct (ep_obj o e1) as [[r|s|k sid a b]|]; try discriminate.
      * destruct (sf_in s && negb (sf_first s)); [|discriminate]. injection H as <-. reflexivity.
      * destruct a; [|discriminate]. injection H as <-. reflexivity.
    + unfold settle in H. destruct (ep_obj o e1) as [[r|s|k sid a b]|]; injection H as <-; reflexivity.
Qed.
Lemma hrun_app : forall a b e, hrun (a ++ b) e = (e1 <- hrun a e ;; hrun b e1).
Proof.
  induction a as [|x a IH]; intros b e; [reflexivity|]. cbn [app HandlerModel.hrun].
  destruct (hstep x e) as [e1|m|]; [apply IH|reflexivity|reflexivity].
Qed.
Lemma calls_cons : forall x l, calls (x :: l) = (if is_call x then 1 else 0) + calls l.
Proof. intros x l. unfold calls. cbn [filter]. destruct (is_call x); [|reflexivity]. unfold len. cbn [List.length]. lia. Qed.
Lemma calls_app : forall a b, calls (a ++ b) = calls a + calls b.
Proof. induction a as [|x a IH]; intros b; [reflexivity|]. cbn [app]. rewrite !calls_cons, IH. lia. Qed.
Lemma proper_app : forall c a b, proper_peer c (a ++ b) <-> proper_peer c a /\ proper_peer c b.
Proof. intros c a b. unfold proper_peer, request_ids. rewrite flat_map_app. apply Forall_app. Qed.
Lemma good_run : forall l e e', good client e -> ep_ids e + calls l <= 1073741823 -> proper_peer client l -> hrun l e = Ok e' ->
  good client e' /\ ep_ids e' = ep_ids e + calls l.
Proof.
  induction l as [|x l IH]; intros e e' G C P H; cbn [HandlerModel.hrun] in H.
  - injection H as <-. split; [exact G|]. unfold calls. cbn. lia.
  - apply bind_ok in H. destruct H as (e1 & H1 & H). rewrite calls_cons in C.
    change (x :: l) with ([x] ++ l) in P. apply proper_app in P. destruct P as [P1 P2].
    assert (Hp : is_call x = true -> ep_ids e < 1073741823) by (intros Ex; rewrite Ex in C; lia).
    pose proof (step_ids x e e1 H1 Hp) as Hi. rewrite calls_cons.
    destruct (IH e1 e') as [G' E']; auto; [|lia|split; [exact G'|lia]].
    apply (good_step x e); auto. intros r ->. unfold proper_peer, request_ids in P1. cbn in P1. now inversion P1.
Qed.
End Good.

(** ** The steps, classified *)
Definition add_jobs (js : list job) (e : ep) : ep :=
  {| ep_ids := ep_ids e; ep_guest := ep_guest e; ep_host := ep_host e; ep_table := ep_table e;
     ep_objs := ep_objs e; ep_jobs := ep_jobs e ++ js; ep_trace := ep_trace e |}.
Definition with_ids (n : N) (e : ep) : ep :=
  {| ep_ids := n; ep_guest := ep_guest e; ep_host := ep_host e; ep_table := ep_table e;
     ep_objs := ep_objs e; ep_jobs := ep_jobs e; ep_trace := ep_trace e |}.
Definition with_table (t : option (list oper)) (e : ep) : ep :=
  {| ep_ids := ep_ids e; ep_guest := ep_guest e; ep_host := ep_host e; ep_table := t;
     ep_objs := ep_objs e; ep_jobs := ep_jobs e; ep_trace := ep_trace e |}.
Definition drop_job (i : nat) (e : ep) : ep :=
  {| ep_ids := ep_ids e; ep_guest := ep_guest e; ep_host := ep_host e; ep_table := ep_table e;
     ep_objs := ep_objs e; ep_jobs := firstn i (ep_jobs e) ++ skipn (S i) (ep_jobs e); ep_trace := ep_trace e |}.
(** The calls a frame makes on its stream, and whether it closes it. *)
Definition calls_of (f : frame) : list scall :=
  match f with
  | FCancel _ => [SComplete]
  | FPayload p => (if pl_next p then [SNext {| py_data := pl_data p; py_meta := pl_metadata p |}] else []) ++ (if pl_complete p then [SComplete] else [])
  | FError x => [SError (er_data x); SComplete]
  | _ => []
  end.
Definition closes (f : frame) : bool :=
  match f with FCancel _ | FError _ => true | FPayload p => pl_complete p | _ => false end.
Definition is_complete (k : scall) : bool := match k with SComplete => true | _ => false end.
Definition passed (x : sobj) (ks : list scall) : list scall :=
  match x with OMono _ => filter (fun k => negb (is_complete k)) ks | _ => ks end.
Definition settles (o : N) (x : sobj) (ks : list scall) : list job :=
  match x with OFlux _ => map (fun _ => JSettle o) (filter is_complete ks) | _ => [] end.
Definition has_sink (x : sobj) : bool := match x with OReq _ _ _ b => b | _ => true end.
Fixpoint stream_calls (o : N) (ks : list scall) (e : ep) : res ep :=
  match ks with [] => Ok e | k :: ks' => e1 <- stream_call o k e ;; stream_calls o ks' e1 end.
Definition on_stream (f : frame) : bool := match f with FCancel _ | FPayload _ | FError _ => true | _ => false end.

Lemma ep_eta : forall e, e = {| ep_ids := ep_ids e; ep_guest := ep_guest e; ep_host := ep_host e; ep_table := ep_table e;
  ep_objs := ep_objs e; ep_jobs := ep_jobs e; ep_trace := ep_trace e |}.
Proof. now intros []. Qed.
Lemma emit_emit : forall a b e, ep_emit b (ep_emit a e) = ep_emit (a ++ b) e.
Proof. intros. unfold ep_emit. cbn. now rewrite app_assoc. Qed.
Lemma emit_nil : forall e, ep_emit [] e = e.
Proof. intros []. unfold ep_emit. cbn. now rewrite app_nil_r. Qed.
Lemma add_jobs_nil : forall e, add_jobs [] e = e.
Proof. intros []. unfold add_jobs. cbn. now rewrite app_nil_r. Qed.
Lemma add_jobs_app : forall a b e, add_jobs b (add_jobs a e) = add_jobs (a ++ b) e.
Proof. intros. unfold add_jobs. cbn. now rewrite app_assoc. Qed.
Lemma jobs_emit : forall a j e, add_jobs j (ep_emit a e) = ep_emit a (add_jobs j e).
Proof. reflexivity. Qed.
Lemma stream_call_eq : forall o x k e, ep_obj o e = Some x -> has_sink x = true ->
  stream_call o k e = Ok (ep_emit (map (HCall o) (passed x [k])) (add_jobs (settles o x [k]) e)).
Proof.
  intros o x k e Hx Hs. unfold stream_call. rewrite Hx. destruct x as [r|s|k' sid a b].
  - destruct k; cbn [passed settles filter is_complete negb map]; rewrite ?add_jobs_nil, ?emit_nil; reflexivity.
  - destruct k; cbn [passed settles filter is_complete negb map]; rewrite ?add_jobs_nil, ?emit_nil; reflexivity.
  - cbn [has_sink] in Hs. subst b. cbn [passed settles map]. now rewrite add_jobs_nil.
Qed.
Lemma stream_calls_eq : forall o x ks e, ep_obj o e = Some x -> has_sink x = true ->
  stream_calls o ks e = Ok (ep_emit (map (HCall o) (passed x ks)) (add_jobs (settles o x ks) e)).
Proof.
  induction ks as [|k ks IH]; intros e Hx Hs; cbn [stream_calls].
  - destruct x; cbn [passed settles filter map]; rewrite add_jobs_nil, emit_nil; reflexivity.
  - rewrite (stream_call_eq o x k e Hx Hs). cbn. rewrite IH; [|exact Hx|exact Hs].
    rewrite jobs_emit, emit_emit, add_jobs_app, <- map_app.
    assert (P1 : passed x [k] ++ passed x ks = passed x (k :: ks)) by (destruct x; [|reflexivity..]; destruct k; reflexivity).
    assert (P2 : settles o x [k] ++ settles o x ks = settles o x (k :: ks)) by (destruct x; [reflexivity| |reflexivity]; destruct k; reflexivity).
    now rewrite P1, P2.
Qed.
Lemma stream_call_sink : forall o k e e', stream_call o k e = Ok e' -> exists x, ep_obj o e = Some x /\ has_sink x = true.
Proof.
  intros o k e e' H. unfold stream_call in H. destruct (ep_obj o e) as [[r|s|k' sid a b]|]; [eauto|eauto| |discriminate].
  destruct b; [eauto|discriminate].
Qed.
(** HandleFrame on Cancel, Payload and Error frames. *)
Lemma handle_on_stream : forall f e, on_stream f = true -> handle_frame f e =
  match get_stream (frame_stream f) e with
  | None => Ok (ep_emit [HRejected] e)
  | Some o => e1 <- stream_calls o (calls_of f) e ;; Ok (if closes f then remove_stream (frame_stream f) e1 else e1)
  end.
Proof.
  intros f e H. destruct f as [s|r|r|x|p|x]; try discriminate; cbn [handle_frame frame_stream calls_of closes stream_calls].
  - destruct (get_stream (cn_stream x) e); [|reflexivity]. now destruct (stream_call n SComplete e).
  - destruct (get_stream (pl_stream p) e) as [o|]; [|reflexivity]. destruct (pl_next p), (pl_complete p); cbn [app stream_calls].
    + destruct (stream_call o (SNext _) e) as [e1| |]; try reflexivity. cbn. now destruct (stream_call o SComplete e1).
    + now destruct (stream_call o (SNext _) e) as [e1| |].
    + cbn. now destruct (stream_call o SComplete e).
    + reflexivity.
  - destruct (get_stream (er_stream x) e) as [o|]; [|reflexivity]. destruct (stream_call o (SError _) e) as [e1| |]; try reflexivity.
    cbn. now destruct (stream_call o SComplete e1).
Qed.

Section Views.
Variable reg : registry.
Variable subscribable : N -> bool.
Variable client : bool.
Inductive view : hop -> ep -> ep -> Prop :=
| VSame x e : (forall f, x <> XFrame f) -> view x e e
| VCallF p input e : view (XCall FNF p input) e
    (ep_emit [HSent (FRequest (call_request FNF (nth_id client (ep_ids e)) p))] (with_ids (ep_ids e + 1) e))
| VCall k p input b x e : (k = RR /\ b = false /\ x = OMono (call_request RR (nth_id client (ep_ids e)) p)) \/
      (k = RS /\ b = false /\ x = OFlux (sf_new (call_request RS (nth_id client (ep_ids e)) p) false)) \/
      (k = RC /\ b = input /\ x = OFlux (sf_new (call_request RC (nth_id client (ep_ids e)) p) input)) ->
    view (XCall k p input) e (ep_emit [HCalled (len (ep_objs e)) k (nth_id client (ep_ids e)) p b] (ep_new x (with_ids (ep_ids e + 1) e)))
| VSubscribe o x i e : ep_obj o e = Some x -> local_id x = Some i ->
    view (XSubscribe o) e (ep_emit (HSubscribed o :: match x with OMono r => [HSent (FRequest r)] | _ => [] end) (register i o e))
| VAsk o n s s' l e : ep_obj o e = Some (OFlux s) -> sf_request n s = (s', l) ->
    view (XRequest o n) e (ep_emit (HAsked o n :: map HSent l) (ep_set o (OFlux s') e))
| VPull o n sid a e : ep_obj o e = Some (OReq RC sid a true) ->
    view (XRequest o n) e (ep_emit [HSent (FRequestN {| rn_stream := sid; rn_n := to_u32 n |})] e)
| VDrop o s e : ep_obj o e = Some (OFlux s) -> view (XCancel o) e (ep_emit (HDropped o :: map HSent (sf_cancel s)) e)
| VDropIn o sid a e : ep_obj o e = Some (OReq RC sid a true) -> view (XCancel o) e (ep_emit [HSent (FCancel {| cn_stream := sid |})] e)
| VFed o ev s e : ep_obj o e = Some (OFlux s) -> view (XIn o ev) e (ep_emit (HFed o ev :: map HSent (sf_input ev s)) e)
| VListen o sid a b e : ep_obj o e = Some (OReq RC sid a b) -> view (XListen o) e (ep_set o (OReq RC sid a true) e)
| VSetup s t ev e : ev = [] \/ ev = [HRejected] -> view (XFrame (FSetup s)) e (ep_emit (HRecv (FSetup s) :: ev) (with_table t e))
| VReq r k e : kind_of (rq_type r) = Some k -> view (XFrame (FRequest r)) e (ep_emit [HRecv (FRequest r)] (add_jobs [JHandle k r] e))
| VOdd r ev e : kind_of (rq_type r) = None -> ev = [] \/ ev = [HRejected] -> view (XFrame (FRequest r)) e (ep_emit (HRecv (FRequest r) :: ev) e)
| VReqN r js e : js = [] \/ (exists o, get_stream (rn_stream r) e = Some o /\ js = [JDemand o (Z.of_N (rn_n r))]) ->
    (forall o q, get_stream (rn_stream r) e = Some o -> ep_obj o e <> Some (OMono q)) ->
    (forall o, get_stream (rn_stream r) e = Some o -> js = [JDemand o (Z.of_N (rn_n r))]) ->
    view (XFrame (FRequestN r)) e (ep_emit [HRecv (FRequestN r)] (add_jobs js e))
| VUnknown f e : on_stream f = true -> get_stream (frame_stream f) e = None -> view (XFrame f) e (ep_emit [HRecv f; HRejected] e)
| VDeliver f o x e : on_stream f = true -> get_stream (frame_stream f) e = Some o -> ep_obj o e = Some x -> (calls_of f <> [] -> has_sink x = true) ->
    view (XFrame f) e ((if closes f then remove_stream (frame_stream f) else fun e => e)
      (ep_emit (HRecv f :: map (HCall o) (passed x (calls_of f))) (add_jobs (settles o x (calls_of f)) e)))
| VHandle i k r e e' : nth_error (ep_jobs e) i = Some (JHandle k r) -> handle_request reg subscribable k r (drop_job i e) = Ok e' -> view (XJob i) e e'
| VDemand i o n e : nth_error (ep_jobs e) i = Some (JDemand o n) -> view (XJob i) e (ep_emit [HDemand o n] (drop_job i e))
| VSettle i o s e : nth_error (ep_jobs e) i = Some (JSettle o) -> ep_obj o e = Some (OFlux s) ->
    view (XJob i) e (ep_emit [HSettled o] (ep_set o (OFlux (sf_on_complete s)) (drop_job i e)))
| VSettled i o e : nth_error (ep_jobs e) i = Some (JSettle o) -> (forall s, ep_obj o e <> Some (OFlux s)) -> view (XJob i) e (drop_job i e).

Lemma hstep_view : forall x e e', good client e -> (is_call x = true -> ep_ids e < 1073741823) ->
  hstep reg subscribable client x e = Ok e' -> view x e e'.
Proof.
  intros x e e' G C H. destruct x as [k p input|o|o n|o|o ev|o|f|i]; cbn [HandlerModel.hstep] in H.
  - specialize (C eq_refl). unfold do_call in H. destruct (next_id client (ep_ids e) C) as (b & E). rewrite E in H. clear E.
    destruct k; injection H as <-; [eapply VCall; auto|apply VCallF|eapply VCall; auto|eapply VCall; auto].
  - destruct (ep_obj o e) as [[r|s|k sid a b]|] eqn:E; injection H as <-; try (apply VSame; discriminate);
      [eapply (VSubscribe o (OMono r)); eauto; reflexivity|eapply (VSubscribe o (OFlux s)); eauto; reflexivity].
  - destruct (ep_obj o e) as [[r|s|k sid a b]|] eqn:E; try (injection H as <-; apply VSame; discriminate).
    + destruct (sf_request n s) as [s' l] eqn:Es. injection H as <-. now apply (VAsk o n s s' l).
    + destruct k; try (injection H as <-; apply VSame; discriminate). destruct b; injection H as <-; [|apply VSame; discriminate]. eapply VPull; eauto.
  - destruct (ep_obj o e) as [[r|s|k sid a b]|] eqn:E; try (injection H as <-; apply VSame; discriminate).
    + injection H as <-. now apply VDrop.
    + destruct k; try (injection H as <-; apply VSame; discriminate). destruct b; injection H as <-; [|apply VSame; discriminate]. eapply VDropIn; eauto.
  - destruct (ep_obj o e) as [[r|s|k sid a b]|] eqn:E; injection H as <-; try (apply VSame; discriminate). now apply VFed.
  - destruct (ep_obj o e) as [[r|s|k sid a b]|] eqn:E; try (injection H as <-; apply VSame; discriminate).
    destruct k; injection H as <-; try (apply VSame; discriminate). eapply VListen; eauto.
  - set (e0 := ep_emit [HRecv f] e) in *. destruct (on_stream f) eqn:Ef.
    + rewrite (handle_on_stream f e0 Ef) in H. change (get_stream (frame_stream f) e0) with (get_stream (frame_stream f) e) in H.
      destruct (get_stream (frame_stream f) e) as [o|] eqn:E.
      * apply bind_ok in H. destruct H as (e1 & H1 & H).
        assert (Hr := get_registered client _ _ e G E). destruct (registered_obj client _ _ e G Hr) as (x & Hx & _).
        assert (Hs : calls_of f <> [] -> has_sink x = true).
        { intros Hc. destruct (calls_of f) as [|k ks]; [contradiction|]. cbn [stream_calls] in H1. apply bind_ok in H1. destruct H1 as (e2 & H1 & _).
          apply stream_call_sink in H1. destruct H1 as (y & Y1 & Y2). change (ep_obj o e = Some y) in Y1. congruence. }
        assert (V := VDeliver f o x e Ef E Hx Hs).
        assert (E1 : e1 = ep_emit (HRecv f :: map (HCall o) (passed x (calls_of f))) (add_jobs (settles o x (calls_of f)) e)).
        { destruct (calls_of f) as [|k ks] eqn:Ec.
          - cbn [stream_calls] in H1. injection H1 as <-. destruct x; cbn [passed settles filter map]; now rewrite add_jobs_nil.
          - rewrite (stream_calls_eq o x) in H1 by (auto; apply Hs; discriminate). injection H1 as <-. unfold e0. rewrite jobs_emit, emit_emit. reflexivity. }
        rewrite <- E1 in V. injection H as <-. now destruct (closes f).
      * injection H as <-. unfold e0. rewrite emit_emit. now apply VUnknown.
    + destruct f as [s|r|r|y|p|y]; try discriminate Ef; cbn [handle_frame] in H.
      * change (ep_table e0) with (ep_table e) in H. destruct (ep_table e) as [t|] eqn:Et.
        -- injection H as <-. assert (V := VSetup s (ep_table e) [] e (or_introl eq_refl)). unfold with_table in V. rewrite <- ep_eta in V. exact V.
        -- destruct (table_from_bytes (su_data s)) as [t| |]; [| |discriminate]; injection H as <-.
           ++ exact (VSetup s (Some t) [] e (or_introl eq_refl)).
           ++ assert (V := VSetup s (ep_table e) [HRejected] e (or_intror eq_refl)). unfold with_table in V. rewrite <- ep_eta in V.
              unfold e0. rewrite emit_emit. exact V.
      * destruct (kind_of (rq_type r)) as [k|] eqn:Ek; [injection H as <-; exact (VReq r k e Ek)|].
        destruct (FrameTypeRequestN <=? rq_type r); [|injection H as <-; exact (VOdd r [] e Ek (or_introl eq_refl))].
        destruct (get_stream (rq_stream r) e0); [injection H as <-; exact (VOdd r [] e Ek (or_introl eq_refl))|].
        destruct (rq_type r =? FrameTypeRequestN); injection H as <-; [exact (VOdd r [] e Ek (or_introl eq_refl))|].
        unfold e0. rewrite emit_emit. exact (VOdd r [HRejected] e Ek (or_intror eq_refl)).
      * change (get_stream (rn_stream r) e0) with (get_stream (rn_stream r) e) in H.
        destruct (get_stream (rn_stream r) e) as [o|] eqn:E.
        -- change (ep_obj o e0) with (ep_obj o e) in H.
           assert (V := VReqN r [JDemand o (Z.of_N (rn_n r))] e (or_intror (ex_intro _ o (conj E eq_refl)))).
           assert (Z : e' = ep_emit [HRecv (FRequestN r)] (add_jobs [JDemand o (Z.of_N (rn_n r))] e) /\ forall q, ep_obj o e <> Some (OMono q)).
           { destruct (ep_obj o e) as [[]|]; try discriminate; injection H as <-; (split; [reflexivity|discriminate]). }
           destruct Z as [-> Z]. apply V; rewrite E; [intros o' q Ho; injection Ho as <-; apply Z|]. intros o' Ho. now injection Ho as <-.
        -- injection H as <-. assert (V := VReqN r [] e (or_introl eq_refl)). rewrite add_jobs_nil in V. apply V; rewrite E; discriminate.
  - destruct (nth_error (ep_jobs e) i) as [j|] eqn:E; [|injection H as <-; apply VSame; discriminate].
    change {| ep_ids := ep_ids e; ep_guest := ep_guest e; ep_host := ep_host e; ep_table := ep_table e; ep_objs := ep_objs e;
              ep_jobs := firstn i (ep_jobs e) ++ skipn (S i) (ep_jobs e); ep_trace := ep_trace e |} with (drop_job i e) in H.
    destruct j as [k r|o n|o]; cbn [run_job] in H.
    + eapply VHandle; eauto.
    + unfold do_demand in H. assert (e' = ep_emit [HDemand o n] (drop_job i e)).
      { destruct (ep_obj o (drop_job i e)) as [[r|s|k sid a b]|]; try discriminate.
        - destruct (sf_in s && negb (sf_first s)); [|discriminate]. now injection H as <-.
        - destruct a; [|discriminate]. now injection H as <-. }
      subst e'. now apply VDemand.
    + unfold settle in H. change (ep_obj o (drop_job i e)) with (ep_obj o e) in H.
      destruct (ep_obj o e) as [[r|s|k sid a b]|] eqn:Eo; injection H as <-; try (eapply VSettled; [exact E|rewrite Eo; discriminate]). now apply VSettle.
Qed.
End Views.

(** ** The responders *)
Definition dispatched (reg : registry) (k : kind) (r : request) (o : N) : list hevent :=
  let sid := rq_stream r in
  if len (rq_metadata r) <? 8 then [HSent (error_frame_of sid invalid_metadata)]
  else match do_get k reg (unbe (takeN 4 (rq_metadata r))) with
       | None => [HSent (error_frame_of sid not_found)]
       | Some h => match k with
                   | RR | FNF => [HInvoke k sid h {| py_data := rq_data r; py_meta := dropN 8 (rq_metadata r) |}]
                   | _ => [HInvoke k sid h {| py_data := rq_data r; py_meta := rq_metadata r |}; HDemand o (Z.of_N (rq_initial r))]
                   end
       end.
Definition accepted (reg : registry) (k : kind) (r : request) : bool :=
  negb (len (rq_metadata r) <? 8) && match do_get k reg (unbe (takeN 4 (rq_metadata r))) with Some _ => true | None => false end.
Definition opens (k : kind) : bool := match k with RR => false | _ => true end.
Definition has_sub (k : kind) : bool := match k with RS | RC => true | _ => false end.
Lemma handle_request_eq : forall reg sb k r e e', handle_request reg sb k r e = Ok e' ->
  e' = ep_emit (dispatched reg k r (len (ep_objs e)))
    (if accepted reg k r && opens k then register (rq_stream r) (len (ep_objs e)) (ep_new (OReq k (rq_stream r) (has_sub k) false) e) else e).
Proof.
  intros reg sb k r e e' H. unfold handle_request in H. unfold dispatched, accepted.
  destruct (len (rq_metadata r) <? 8); [now injection H as <-|].
  destruct (do_get k reg (unbe (takeN 4 (rq_metadata r)))) as [h|]; [|now injection H as <-].
  destruct k; [| |destruct (sb h); [|discriminate]..]; now injection H as <-.
Qed.

Section Induction.
Variable reg : registry.
Variable subscribable : N -> bool.
Variable client : bool.
(** Invariants of all runs. *)
Lemma run_inv : forall (P : ep -> Prop), P ep_init ->
  (forall x e e', good client e -> good client e' -> P e -> (is_call x = true -> ep_ids e < 1073741823) ->
     (forall r, x = XFrame (FRequest r) -> N.odd (rq_stream r) = negb client) -> view reg subscribable client x e e' -> P e') ->
  forall l e, calls l <= 1073741823 -> proper_peer client l -> hrun reg subscribable client l ep_init = Ok e -> P e /\ good client e.
Proof.
  intros P P0 PS. induction l as [|x l IH] using rev_ind; intros e C Q H.
  - injection H as <-. split; [exact P0|apply good_init].
  - rewrite hrun_app in H. apply bind_ok in H. destruct H as (e1 & H1 & H). cbn [HandlerModel.hrun] in H.
    apply bind_ok in H. destruct H as (e2 & H2 & H). injection H as <-.
    rewrite calls_app, calls_cons in C. replace (calls []) with 0 in C by reflexivity. apply proper_app in Q. destruct Q as [Q1 Q2].
    destruct (IH e1 ltac:(lia) Q1 H1) as [IP IG].
    destruct (good_run reg subscribable client l ep_init e1 (good_init client) ltac:(cbn [ep_init ep_ids]; lia) Q1 H1) as [_ Ei]. cbn [ep_init ep_ids] in Ei.
    assert (Hc : is_call x = true -> ep_ids e1 < 1073741823) by (intros Ex; rewrite Ex in C; lia).
    assert (Hq : forall r, x = XFrame (FRequest r) -> N.odd (rq_stream r) = negb client).
    { intros r ->. unfold proper_peer, request_ids in Q2. cbn in Q2. now inversion Q2. }
    assert (G2 : good client e2) by (apply (good_step reg subscribable client x e1); auto).
    split; [|exact G2]. apply (PS x e1); auto. apply (hstep_view reg subscribable client); auto.
Qed.
End Induction.
