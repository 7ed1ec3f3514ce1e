(** C66, C67: linking the modules of a mesh. *)
From Verif Require Import Base BaseFacts InvokeModel LookupProofs MeshModel.
Local Ltac Zify.zify_post_hook ::= Z.div_mod_to_equations.

(** ** Specification *)
(** The operations of all modules in the order they are looked at, with the
    number of their module. *)
Fixpoint events_from (n : nat) (l : list (bytes * list oper)) : list (nat * oper) :=
  match l with [] => [] | (_, ops) :: l' => map (pair n) ops ++ events_from (S n) l' end.
Definition events (l : list (bytes * list oper)) : list (nat * oper) := events_from 0 l.
Definition is_export (o : oper) : bool := o_dir o =? 1.
Definition is_import (o : oper) : bool := o_dir o =? 2.
Definition serves (ns name : bytes) (o : oper) : Prop := o_dir o = 1 /\ o_ns o = ns /\ o_name o = name.
(** The last export of an operation. *)
Fixpoint latest (l : list (nat * oper)) (ns name : bytes) : option dest :=
  match l with
  | [] => None
  | (n, o) :: l' =>
      match latest l' ns name with
      | Some d => Some d
      | None => if is_export o && (if list_eq_dec N.eq_dec (o_ns o) ns then true else false) && (if list_eq_dec N.eq_dec (o_name o) name then true else false)
                then Some {| d_inst := n; d_index := o_index o |} else None
      end
  end.
Fixpoint first_some {A} (l : list (option A)) : option A := match l with [] => None | Some x :: _ => Some x | None :: l' => first_some l' end.
(** What import [o] of module [n], seen after the operations [seen], is bound
    to: the last exporter seen so far; if there is none, the last exporter at
    the end of the first load after which there is one. *)
Definition bound (l : list (bytes * list oper)) (n : nat) (seen : list (nat * oper)) (o : oper) : option dest :=
  first_some (latest seen (o_ns o) (o_name o) ::
    map (fun k => latest (events (firstn k l)) (o_ns o) (o_name o)) (seq (S n) (List.length l - n))).
(** The kind of a request type. *)
Definition kind_of (ty : N) : option kind :=
  if ty =? 1 then Some RR else if ty =? 2 then Some FNF else if ty =? 3 then Some RS else if ty =? 4 then Some RC else None.
Definition handler (m : mesh) (n : nat) (k : kind) (i : N) : option dest :=
  match nth_error (m_tables m) n with Some t => get_handler k i t | None => None end.
(** Operations as the registry of a module makes them: the imports of one kind
    have different indexes. *)
Definition slot_of (o : oper) : N * N := (o_type o, o_index o).
Definition distinct_imports (ops : list oper) : Prop := NoDup (map slot_of (filter is_import ops)).

(** ** Tables *)
Lemma find_assign : forall {A} k x (v : A) m, find x (assign k v m) = if list_eq_dec N.eq_dec x k then Some v else find x m.
Proof.
  intros A k x v m. induction m as [|[y w] m IH]; cbn [assign find].
  - reflexivity.
  - destruct (list_eq_dec N.eq_dec k y) as [->|Hk]; cbn [find].
    + destruct (list_eq_dec N.eq_dec x y); reflexivity.
    + destruct (list_eq_dec N.eq_dec x y) as [->|]; [|exact IH]. destruct (list_eq_dec N.eq_dec y k); [congruence|reflexivity].
Qed.
Lemma set_slot_ok : forall i d l, i < 4294967295 -> exists l', set_slot i d l = Ok l'.
Proof.
  intros i d l H. unfold set_slot. set (l' := l ++ _). destruct (N.ltb_spec i (len l')); [eexists; reflexivity|].
  exfalso. unfold l' in *. unfold len in *. rewrite app_length, repeat_length in *. unfold u32 in *. rewrite N.mod_small in * by lia. lia.
Qed.
Lemma get_slot_nth : forall i l, get_slot i l = match nth_error l (N.to_nat i) with Some o => o | None => None end.
Proof.
  intros i l. unfold get_slot. destruct (N.leb_spec (len l) i) as [H|H]; [|reflexivity].
  destruct (nth_error l (N.to_nat i)) eqn:E; [|reflexivity]. exfalso. assert (N.to_nat i < List.length l)%nat by (apply nth_error_Some; congruence). unfold len in *. lia.
Qed.
Lemma nth_error_pad : forall (l : slots) n i, match nth_error (l ++ repeat None n) i with Some o => o | None => None end = match nth_error l i with Some o => o | None => None end.
Proof.
  intros l n i. destruct (Nat.lt_ge_cases i (List.length l)) as [H|H].
  - now rewrite nth_error_app1.
  - rewrite nth_error_app2 by assumption. rewrite (proj2 (nth_error_None l i) H). destruct (nth_error (repeat None n) (i - List.length l)) as [o|] eqn:E; [|reflexivity].
    apply nth_error_In, repeat_spec in E. now subst.
Qed.
Lemma nth_error_put : forall {A} (l : list A) i j x, (i < List.length l)%nat ->
  nth_error (firstn i l ++ x :: skipn (S i) l) j = if Nat.eqb j i then Some x else nth_error l j.
Proof.
  intros A l. induction l as [|y l IH]; intros i j x H; [cbn in H; lia|]. destruct i as [|i].
  - destruct j; reflexivity.
  - cbn [firstn app skipn]. destruct j as [|j]; [reflexivity|]. cbn [nth_error Nat.eqb]. apply IH. cbn in H. lia.
Qed.
Lemma get_set_slot : forall i j d l l', set_slot i d l = Ok l' -> get_slot j l' = if j =? i then Some d else get_slot j l.
Proof.
  intros i j d l l' H. unfold set_slot in H. set (p := l ++ _) in H. destruct (N.ltb_spec i (len p)) as [Hi|]; [|discriminate]. assert (E := f_equal (fun r => match r with Ok x => x | _ => l' end) H). cbv beta iota in E. subst l'. clear H.
  rewrite !get_slot_nth. rewrite nth_error_put by (unfold len in Hi; lia). destruct (N.eqb_spec j i) as [->|Hn].
  - now rewrite Nat.eqb_refl.
  - destruct (Nat.eqb_spec (N.to_nat j) (N.to_nat i)); [lia|]. apply nth_error_pad.
Qed.
Lemma set_handler_ok : forall ty i d t, i < 4294967295 -> exists t', set_handler ty i d t = Ok t'.
Proof.
  intros. unfold set_handler.
  repeat match goal with |- context [if ?c then _ else _] => destruct c end; try (eexists; reflexivity);
  match goal with |- context [set_slot i d ?l] => destruct (set_slot_ok i d l H) as [l' ->] end; eexists; reflexivity.
Qed.
Lemma get_set_handler : forall ty i d t t' k j, set_handler ty i d t = Ok t' ->
  get_handler k j t' = if (match kind_of ty with Some k' => match k, k' with RR, RR | FNF, FNF | RS, RS | RC, RC => true | _, _ => false end | None => false end) && (j =? i)
                       then Some d else get_handler k j t.
Proof.
  intros ty i d t t' k j H. unfold set_handler, OpRequestResponse, OpFireAndForget, OpRequestStream, OpRequestChannel in H. unfold kind_of, get_handler.
  repeat match type of H with context [if ?c then _ else _] => destruct c eqn:? end;
  try (match type of H with context [set_slot i d ?l] => destruct (set_slot i d l) as [l'| |] eqn:E; try discriminate H; pose proof (get_set_slot i j d _ _ E) as G end);
  cbn [bind] in H; injection H as <-; destruct k; cbn [t_rr t_fnf t_rs t_rc andb]; try reflexivity; rewrite G; reflexivity.
Qed.

Lemma NoDup_app_intro : forall {A} (a b : list A), NoDup a -> NoDup b -> (forall x, In x a -> ~ In x b) -> NoDup (a ++ b).
Proof.
  intros A a b Ha Hb H. induction Ha as [|x a Hx Ha IH]; [exact Hb|]. cbn [app]. constructor.
  - rewrite in_app_iff. intros [X|X]; [contradiction|]. exact (H x (or_introl eq_refl) X).
  - apply IH. intros y Hy. apply H. now right.
Qed.
(** ** Invariant *)
(** All imports seen, with what they are bound to. *)
Definition entry := (nat * oper * option dest)%type.
Definition key (e : entry) : nat * N * N := (fst (fst e), o_type (snd (fst e)), o_index (snd (fst e))).
Definition open (e : entry) : bool := match snd e with None => true | Some _ => false end.
Record linked (m : mesh) (E : list (nat * oper)) (A : list entry) : Prop := {
  lk_find : forall ns name, find_export ns name m = latest E ns name;
  lk_slot : forall n o b k, In (n, o, b) A -> kind_of (o_type o) = Some k -> handler m n k (o_index o) = b;
  lk_rest : forall n k i, (forall o b, In (n, o, b) A -> kind_of (o_type o) = Some k -> o_index o <> i) -> handler m n k i = None;
  lk_inst : forall n o b, In (n, o, b) A -> (n < List.length (m_tables m))%nat;
  lk_keys : NoDup (map key A);
  lk_from : forall n o d, In (n, o, Some d) A -> exists e, In (d_inst d, e) E /\ serves (o_ns o) (o_name o) e /\ o_index e = d_index d }.

Lemma latest_app : forall a b ns name, latest (a ++ b) ns name = match latest b ns name with Some d => Some d | None => latest a ns name end.
Proof.
  induction a as [|[n o] a IH]; intros b ns name; cbn [app latest].
  - destruct (latest b ns name); reflexivity.
  - rewrite IH. destruct (latest b ns name); [reflexivity|]. destruct (latest a ns name); reflexivity.
Qed.
Lemma latest_from : forall l ns name d, latest l ns name = Some d -> exists e, In (d_inst d, e) l /\ serves ns name e /\ o_index e = d_index d.
Proof.
  induction l as [|[n o] l IH]; intros ns name d H; [discriminate H|]. cbn [latest] in H. destruct (latest l ns name) as [x|] eqn:E.
  - injection H as ->. destruct (IH _ _ _ E) as (e & Hi & Hs & He). exists e. split; [now right|auto].
  - destruct (is_export o) eqn:Ex; [|discriminate H]. destruct (list_eq_dec N.eq_dec (o_ns o) ns) as [<-|]; [|discriminate H]. destruct (list_eq_dec N.eq_dec (o_name o) name) as [<-|]; [|discriminate H].
    injection H as <-. exists o. split; [now left|]. split; [|reflexivity]. split; [now apply N.eqb_eq in Ex|auto].
Qed.
Lemma latest_some : forall l n e ns name, In (n, e) l -> serves ns name e -> latest l ns name <> None.
Proof.
  induction l as [|[m o] l IH]; intros n e ns name Hi (H1 & H2 & H3); [destruct Hi|]. cbn [latest]. destruct Hi as [Hi|Hi].
  - injection Hi as <- <-. destruct (latest l ns name); [discriminate|]. unfold is_export. rewrite H1, H2, H3. cbn [N.eqb Pos.eqb andb].
    destruct (list_eq_dec N.eq_dec ns ns); [|congruence]. destruct (list_eq_dec N.eq_dec name name); [discriminate|congruence].
  - specialize (IH n e ns name Hi (conj H1 (conj H2 H3))). destruct (latest l ns name); [discriminate|contradiction].
Qed.
Lemma kind_of_inj : forall a b k, kind_of a = Some k -> kind_of b = Some k -> a = b.
Proof.
  intros a b k. unfold kind_of. repeat match goal with |- context [?x =? ?y] => destruct (N.eqb_spec x y) end; intros H1 H2; try congruence; rewrite <- H1 in H2; discriminate H2.
Qed.
Lemma same_kind : forall k k', match k, k' with RR, RR | FNF, FNF | RS, RS | RC, RC => true | _, _ => false end = true <-> k = k'.
Proof. intros [] []; split; intros; try reflexivity; try discriminate. Qed.

Lemma handler_link : forall m n t t' k j n', nth_error (m_tables m) n = Some t -> forall f e p c,
  handler {| m_files := f; m_exports := e; m_pending := p; m_tables := firstn n (m_tables m) ++ t' :: skipn (S n) (m_tables m); m_closed := c |} n' k j =
  if Nat.eqb n' n then get_handler k j t' else handler m n' k j.
Proof.
  intros m n t t' k j n' H f e p c. unfold handler. cbn [m_tables]. rewrite nth_error_put by (apply nth_error_Some; congruence). destruct (Nat.eqb n' n); reflexivity.
Qed.
Lemma NoDup_mid_keys : forall (A1 A2 : list entry) n o b, NoDup (map key (A1 ++ (n, o, b) :: A2)) ->
  forall o' b', In (n, o', b') (A1 ++ A2) -> o_type o' = o_type o -> o_index o' <> o_index o.
Proof.
  intros A1 A2 n o b H o' b' Hi Ht Hx. rewrite map_app in H. cbn [map] in H. apply NoDup_remove_2 in H. apply H. rewrite <- map_app.
  change (key (n, o, b)) with (n, o_type o, o_index o). rewrite <- Ht, <- Hx. change (n, o_type o', o_index o') with (key (n, o', b')). now apply in_map.
Qed.
(** Linking one import. *)
Lemma link_linked : forall m E (A1 : list entry) n o (A2 : list entry) r, linked m E (A1 ++ (n, o, None) :: A2) -> link n o m = Ok r ->
  match r with
  | None => latest E (o_ns o) (o_name o) = None
  | Some m' => exists d, latest E (o_ns o) (o_name o) = Some d /\ linked m' E (A1 ++ ((n, o, Some d) : entry) :: A2) /\ m_pending m' = m_pending m /\
      List.length (m_tables m') = List.length (m_tables m)
  end.
Proof.
  intros m E A1 n o A2 r [Lf Ls Lr Li Lk Lo] H. unfold link in H. rewrite Lf in H. destruct (latest E (o_ns o) (o_name o)) as [d|] eqn:El; [|injection H as <-; reflexivity].
  assert (Hn : (n < List.length (m_tables m))%nat) by (apply (Li n o None), in_elt).
  destruct (nth_error (m_tables m) n) as [t|] eqn:Et; [|apply nth_error_None in Et; lia].
  destruct (set_handler (o_type o) (o_index o) d t) as [t'| |] eqn:Eh; cbn [bind] in H; [|discriminate H..].
  match type of H with Ok (Some ?x) = _ => remember x as m' eqn:Em end. injection H as <-.
  assert (G : forall n' k j, handler m' n' k j = if Nat.eqb n' n then get_handler k j t' else handler m n' k j).
  { intros. subst m'. now apply (handler_link m n t). }
  assert (G' : forall k j, handler m n k j = get_handler k j t). { intros. unfold handler. now rewrite Et. }
  exists d. split; [reflexivity|]. split; [|split; [now subst m'|]].
  - assert (In' : forall x, In x (A1 ++ (n, o, Some d) :: A2) -> x = (n, o, Some d) \/ In x (A1 ++ A2)).
    { intros x Hx. apply in_app_iff in Hx. destruct Hx as [Hx|[Hx|Hx]]; [right; apply in_app_iff; now left|now left|right; apply in_app_iff; now right]. }
    assert (Old : forall x, In x (A1 ++ A2) -> In x (A1 ++ (n, o, None) :: A2)).
    { intros x Hx. apply in_app_iff in Hx. apply in_app_iff. destruct Hx; [now left|right; now right]. }
    constructor.
    + intros ns name. rewrite <- Lf. now subst m'.
    + intros n0 o0 b0 k0 Hi Hk. rewrite G. destruct (In' _ Hi) as [X|X].
      * injection X as -> -> ->. rewrite Nat.eqb_refl, (get_set_handler _ _ _ _ _ _ _ Eh), Hk, N.eqb_refl, (proj2 (same_kind k0 k0) eq_refl). reflexivity.
      * destruct (Nat.eqb_spec n0 n) as [->|]; [|exact (Ls _ _ _ _ (Old _ X) Hk)].
        rewrite (get_set_handler _ _ _ _ _ _ _ Eh). destruct (kind_of (o_type o)) as [k1|] eqn:Ek.
        -- destruct (N.eqb_spec (o_index o0) (o_index o)) as [Ei|]; [|rewrite andb_false_r, <- G'; exact (Ls _ _ _ _ (Old _ X) Hk)].
           rewrite andb_true_r. match goal with |- (if ?c then _ else _) = _ => destruct c eqn:Ec end; [|rewrite <- G'; exact (Ls _ _ _ _ (Old _ X) Hk)].
           apply same_kind in Ec. subst k1. exfalso. exact (NoDup_mid_keys _ _ _ _ _ Lk o0 b0 X (kind_of_inj _ _ _ Hk Ek) Ei).
        -- cbn [andb]. rewrite <- G'. exact (Ls _ _ _ _ (Old _ X) Hk).
    + intros n0 k0 i0 Hno. rewrite G. assert (Hold : handler m n0 k0 i0 = None).
      { apply Lr. intros o1 b1 Hi1. apply in_app_iff in Hi1. destruct Hi1 as [Hi1|[Hi1|Hi1]]; [apply (Hno o1 b1), in_app_iff; now left| |apply (Hno o1 b1), in_app_iff; right; now right].
        injection Hi1 as <- <- _. apply (Hno o (Some d)), in_elt. }
      destruct (Nat.eqb_spec n0 n) as [->|]; [|exact Hold]. rewrite (get_set_handler _ _ _ _ _ _ _ Eh), <- G', Hold.
      destruct (kind_of (o_type o)) as [k1|] eqn:Ek; [|reflexivity]. match goal with |- (if ?c && _ then _ else _) = _ => destruct c eqn:Ec end; [|reflexivity].
      apply same_kind in Ec. subst k1. destruct (N.eqb_spec i0 (o_index o)) as [->|]; [|reflexivity]. exfalso. apply (Hno o (Some d)); auto. apply in_elt.
    + intros n0 o0 b0 Hi. assert (Hl : List.length (m_tables m') = List.length (m_tables m)). { subst m'. cbn [m_tables]. rewrite app_length, firstn_length. cbn [List.length]. rewrite skipn_length. lia. }
      rewrite Hl. destruct (In' _ Hi) as [X|X]; [injection X as -> _ _; exact Hn|exact (Li _ _ _ (Old _ X))].
    + rewrite map_app in *. exact Lk.
    + intros n0 o0 d0 Hi. destruct (In' _ Hi) as [X|X]; [|exact (Lo _ _ _ (Old _ X))]. injection X as -> -> ->. now apply latest_from.
  - subst m'. cbn [m_tables]. rewrite app_length, firstn_length. cbn [List.length]. rewrite skipn_length. lia.
Qed.
Definition todo (A : list entry) : list (nat * oper) := map fst (filter open A).
Definition rebind (E : list (nat * oper)) (e : entry) : entry :=
  match snd e with Some _ => e | None => (fst e, latest E (o_ns (snd (fst e))) (o_name (snd (fst e)))) end.
Lemma todo_app : forall A B, todo (A ++ B) = todo A ++ todo B.
Proof. intros. unfold todo. now rewrite filter_app, map_app. Qed.
Lemma cons_snoc : forall (a : list entry) x b, a ++ x :: b = (a ++ [x]) ++ b.
Proof. intros. now rewrite <- app_assoc. Qed.
Lemma linked_pending : forall m E A p, linked m E A -> linked (with_pending p m) E A.
Proof. intros m E A p [A1 A2 A3 A4 A5 A6]. constructor; auto. Qed.
Lemma relink_linked : forall A2 m E A1 kept m', linked m E (A1 ++ A2) -> kept = todo A1 -> relink (todo A2) kept m = Ok m' ->
  linked m' E (A1 ++ map (rebind E) A2) /\ m_pending m' = todo (A1 ++ map (rebind E) A2) /\ List.length (m_tables m') = List.length (m_tables m).
Proof.
  induction A2 as [|[[n o] b] A2 IH]; intros m E A1 kept m' L -> H.
  - cbn [todo filter map relink] in H. injection H as <-. cbn [map]. split; [now apply linked_pending|]. split; [|reflexivity]. now rewrite app_nil_r.
  - destruct b as [d|].
    + change (todo ((n, o, Some d) :: A2)) with (todo A2) in H. cbn [map]. change (rebind E (n, o, Some d)) with (n, o, Some d).
      change (linked m E (@app entry A1 (@cons entry (n, o, Some d) A2))) in L. rewrite (cons_snoc A1 (n, o, Some d) A2) in L.
      destruct (IH m E (A1 ++ [(n, o, Some d)]) (todo A1) m' L) as (R1 & R2 & R3); [rewrite todo_app; cbn; now rewrite app_nil_r|exact H|]. rewrite <- app_assoc in R1, R2. auto.
    + change (todo ((n, o, None) :: A2)) with ((n, o) :: todo A2) in H. cbn [relink] in H. destruct (link n o m) as [r| |] eqn:El; cbn [bind] in H; [|discriminate H..].
      pose proof (link_linked _ _ _ _ _ _ _ L El) as K. cbn [map]. change (rebind E (n, o, None)) with (n, o, latest E (o_ns o) (o_name o)). destruct r as [m1|].
      * destruct K as (d & Hd & L1 & P1 & N1). rewrite Hd. change (linked m1 E (@app entry A1 (@cons entry (n, o, Some d) A2))) in L1. rewrite (cons_snoc A1 (n, o, Some d) A2) in L1.
        destruct (IH m1 E (A1 ++ [(n, o, Some d)]) (todo A1) m' L1) as (R1 & R2 & R3); [rewrite todo_app; cbn; now rewrite app_nil_r|exact H|]. rewrite <- app_assoc in R1, R2. split; [exact R1|]. split; [exact R2|congruence].
      * rewrite K. change (linked m E (@app entry A1 (@cons entry (n, o, None) A2))) in L. rewrite (cons_snoc A1 (n, o, None) A2) in L.
        destruct (IH m E (A1 ++ [(n, o, None)]) (todo A1 ++ [(n, o)]) m' L) as (R1 & R2 & R3); [rewrite todo_app; reflexivity|exact H|]. rewrite <- app_assoc in R1, R2. auto.
Qed.
(** The entries added by the operations of a module. *)
Fixpoint added (n : nat) (E : list (nat * oper)) (ops : list oper) : list entry :=
  match ops with [] => [] | o :: l => (if is_import o then [(n, o, latest E (o_ns o) (o_name o))] else []) ++ added n (E ++ [(n, o)]) l end.
Lemma find_add_export : forall n o m ns name, find_export ns name (add_export n o m) =
  if (if list_eq_dec N.eq_dec (o_ns o) ns then true else false) && (if list_eq_dec N.eq_dec (o_name o) name then true else false)
  then Some {| d_inst := n; d_index := o_index o |} else find_export ns name m.
Proof.
  intros n o m ns name. unfold find_export, add_export. cbn [m_exports]. rewrite find_assign. destruct (list_eq_dec N.eq_dec ns (o_ns o)) as [->|H].
  - destruct (list_eq_dec N.eq_dec (o_ns o) (o_ns o)); [|congruence]. rewrite find_assign. cbn [andb]. destruct (list_eq_dec N.eq_dec name (o_name o)) as [->|H'].
    + destruct (list_eq_dec N.eq_dec (o_name o) (o_name o)); [reflexivity|congruence].
    + destruct (list_eq_dec N.eq_dec (o_name o) name); [congruence|]. destruct (find (o_ns o) (m_exports m)); reflexivity.
  - destruct (list_eq_dec N.eq_dec (o_ns o) ns); [congruence|reflexivity].
Qed.
Lemma linked_event : forall m E A n o, linked m E A -> is_export o = false -> linked m (E ++ [(n, o)]) A.
Proof.
  intros m E A n o [L1 L2 L3 L4 L5 L6] H. constructor; auto.
  - intros ns name. rewrite L1, latest_app. cbn [latest]. rewrite H. reflexivity.
  - intros n0 o0 d Hi. destruct (L6 _ _ _ Hi) as (e & He & Hs). exists e. split; [apply in_app_iff; now left|exact Hs].
Qed.
Lemma linked_new : forall m E A n o, linked m E A -> (n < List.length (m_tables m))%nat -> ~ In (key (n, o, None)) (map key A) -> linked m E (A ++ [(n, o, None)]).
Proof.
  intros m E A n o [L1 L2 L3 L4 L5 L6] Hn Hk. constructor; auto.
  - intros n0 o0 b k Hi Hkk. apply in_app_iff in Hi. destruct Hi as [Hi|[Hi|[]]]; [eauto|]. injection Hi as <- <- <-. apply L3. intros o1 b1 Hi1 Hk1 Hx. apply Hk.
    change (key (n, o, None)) with (n, o_type o, o_index o). rewrite <- Hx, <- (kind_of_inj _ _ _ Hk1 Hkk). change (n, o_type o1, o_index o1) with (key (n, o1, b1)). now apply in_map.
  - intros n0 k i Hno. apply L3. intros o1 b1 Hi1. apply (Hno o1 b1). apply in_app_iff. now left.
  - intros n0 o0 b Hi. apply in_app_iff in Hi. destruct Hi as [Hi|[Hi|[]]]; [eauto|]. now injection Hi as <- _ _.
  - rewrite map_app. cbn [map]. apply NoDup_snoc; auto.
  - intros n0 o0 d Hi. apply in_app_iff in Hi. destruct Hi as [Hi|[Hi|[]]]; [eauto|discriminate Hi].
Qed.
Lemma added_keys : forall ops n E, map key (added n E ops) = map (fun o => (n, o_type o, o_index o)) (filter is_import ops).
Proof. induction ops as [|o ops IH]; intros n E; [reflexivity|]. cbn [added filter]. rewrite map_app, IH. destruct (is_import o); reflexivity. Qed.
Lemma link_ops_linked : forall ops n m E A m', linked m E A -> m_pending m = todo A -> (n < List.length (m_tables m))%nat ->
  NoDup (map key (A ++ added n E ops)) -> link_ops n ops m = Ok m' ->
  linked m' (E ++ map (pair n) ops) (A ++ added n E ops) /\ m_pending m' = todo (A ++ added n E ops) /\ List.length (m_tables m') = List.length (m_tables m).
Proof.
  induction ops as [|o ops IH]; intros n m E A m' L P Hn ND H.
  - cbn [link_ops] in H. injection H as <-. cbn [added map]. rewrite !app_nil_r. auto.
  - cbn [link_ops] in H. destruct (link_op n o m) as [m1| |] eqn:El; cbn [bind] in H; [|discriminate H..].
    assert (K : linked m1 (E ++ [(n, o)]) (A ++ (if is_import o then [((n, o, latest E (o_ns o) (o_name o)) : entry)] else [])) /\
                m_pending m1 = todo (A ++ (if is_import o then [((n, o, latest E (o_ns o) (o_name o)) : entry)] else [])) /\ List.length (m_tables m1) = List.length (m_tables m)).
    { unfold link_op, DirExport, DirImport in El. unfold is_import. destruct (N.eqb_spec (o_dir o) 1) as [Hx|Hx].
      - assert (m1 = add_export n o m) by congruence. subst m1. rewrite Hx. cbn [N.eqb Pos.eqb]. rewrite app_nil_r. split; [|split; [exact P|reflexivity]]. destruct L as [L1 L2 L3 L4 L5 L6]. constructor; auto.
        + intros ns name. rewrite find_add_export, latest_app. cbn [latest]. unfold is_export. rewrite Hx. cbn [N.eqb Pos.eqb andb]. rewrite L1.
          destruct (list_eq_dec N.eq_dec (o_ns o) ns), (list_eq_dec N.eq_dec (o_name o) name); reflexivity.
        + intros n0 o0 d Hi. destruct (L6 _ _ _ Hi) as (e & He & Hs). exists e. split; [apply in_app_iff; now left|exact Hs].
      - assert (Ex : is_export o = false) by (unfold is_export; now apply N.eqb_neq). destruct (N.eqb_spec (o_dir o) 2) as [Hy|Hy].
        + assert (L' : linked m E (A ++ [(n, o, None)])).
          { apply linked_new; auto. intros X. cbn [added] in ND. unfold is_import in ND. rewrite Hy in ND. cbn [N.eqb Pos.eqb app] in ND. rewrite map_app in ND. cbn [map] in ND.
            apply NoDup_remove_2 in ND. apply ND. apply in_app_iff. left. exact X. }
          destruct (link n o m) as [r| |] eqn:Ek; cbn [bind] in El; [|discriminate El..]. pose proof (link_linked m E A n o [] r L' Ek) as K. destruct r as [m2|].
          * injection El as ->. destruct K as (d & Hd & K1 & K2 & K3). rewrite Hd. split; [now apply linked_event|]. split; [|exact K3]. rewrite K2, P, todo_app. cbn. now rewrite app_nil_r.
          * rewrite K. assert (m1 = with_pending (m_pending m ++ [(n, o)]) m) by congruence. subst m1. split; [apply linked_pending, linked_event; auto|]. split; [|reflexivity]. cbn [with_pending m_pending]. rewrite P, todo_app. reflexivity.
        + injection El as <-. rewrite app_nil_r. split; [now apply linked_event|auto]. }
    destruct K as (K1 & K2 & K3). cbn [added] in ND |- *. rewrite app_assoc in ND |- *. cbn [map].
    destruct (IH n m1 _ _ m' K1 K2) as (R1 & R2 & R3); [lia|exact ND|exact H|]. rewrite <- app_assoc in R1. split; [exact R1|]. split; [exact R2|lia].
Qed.
(** No import is open that has an exporter. *)
Definition settled (E : list (nat * oper)) (A : list entry) : Prop := forall n o, In (n, o, None) A -> latest E (o_ns o) (o_name o) = None.
Lemma settled_rebind : forall E A, settled E A -> map (rebind E) A = A.
Proof.
  intros E A. induction A as [|[[n o] b] A IH]; intros H; [reflexivity|]. cbn [map]. rewrite IH by (intros n0 o0 Hi; apply (H n0 o0); now right).
  destruct b as [d|]; [reflexivity|]. unfold rebind. cbn [snd fst]. rewrite (H n o) by now left. reflexivity.
Qed.
Lemma rebind_settled : forall E A, settled E (map (rebind E) A).
Proof.
  intros E A n o H. apply in_map_iff in H. destruct H as ([[n0 o0] b] & He & _). unfold rebind in He. cbn [snd fst] in He. destruct b; [discriminate He|]. injection He as -> -> H. exact H.
Qed.
Lemma added_settled : forall ops n E n0 o, existsb is_export ops = false -> In (n0, o, None) (added n E ops) -> latest E (o_ns o) (o_name o) = None.
Proof.
  induction ops as [|x ops IH]; intros n E n0 o He Hi; [destruct Hi|]. cbn [existsb] in He. apply orb_false_iff in He. destruct He as [He1 He2]. cbn [added] in Hi. apply in_app_iff in Hi. destruct Hi as [Hi|Hi].
  - destruct (is_import x); [|destruct Hi]. destruct Hi as [Hi|[]]. injection Hi as _ -> H. exact H.
  - specialize (IH n _ n0 o He2 Hi). rewrite latest_app in IH. cbn [latest] in IH. rewrite He1 in IH. exact IH.
Qed.
Lemma latest_no_export : forall ops n E ns name, existsb is_export ops = false -> latest (E ++ map (pair n) ops) ns name = latest E ns name.
Proof.
  intros ops n E ns name H. rewrite latest_app. replace (latest (map (pair n) ops) ns name) with (@None dest); [reflexivity|]. symmetry.
  induction ops as [|x ops IH]; [reflexivity|]. cbn [existsb] in H. apply orb_false_iff in H. cbn [map latest]. rewrite (IH (proj2 H)), (proj1 H). reflexivity.
Qed.
Lemma linked_rebind_all : forall m E A, linked m E A -> todo A = [] -> map (rebind E) A = A.
Proof.
  intros m E A _ H. induction A as [|[[n o] [d|]] A IH]; [reflexivity| |discriminate H]. cbn [map]. f_equal. exact (IH H).
Qed.
Lemma load_linked : forall file ops m E A m', linked m E A -> m_pending m = todo A -> settled E A -> distinct_imports ops -> load file ops m = Ok m' ->
  let n := List.length (m_tables m) in let E' := E ++ map (pair n) ops in let A' := map (rebind E') (A ++ added n E ops) in
  linked m' E' A' /\ m_pending m' = todo A' /\ settled E' A' /\ List.length (m_tables m') = S n.
Proof.
  intros file ops m E A m' L P St D H n E' A'. unfold load in H. fold n in H. match type of H with context [link_ops n ops ?x] => set (m0 := x) in H end.
  assert (L0 : linked m0 E A).
  { assert (Hh : forall n0 k i, handler m0 n0 k i = handler m n0 k i).
    { intros n0 k i. unfold handler, m0. cbn [m_tables]. destruct (Nat.lt_ge_cases n0 n) as [Hl|Hl].
      - now rewrite nth_error_app1.
      - rewrite nth_error_app2 by exact Hl. rewrite (proj2 (nth_error_None (m_tables m) n0) Hl). destruct (n0 - Datatypes.length (m_tables m))%nat as [|[|]]; [|reflexivity..]. cbn [nth_error]. destruct k; unfold get_handler; rewrite get_slot_nth; cbn [no_tables t_rr t_fnf t_rs t_rc]; now destruct (N.to_nat i). }
    destruct L as [L1 L2 L3 L4 L5 L6]. constructor; auto.
    - intros. rewrite Hh. eauto.
    - intros. rewrite Hh. eauto.
    - intros n0 o b Hi. unfold m0. cbn [m_tables]. rewrite app_length. specialize (L4 _ _ _ Hi). lia. }
  assert (Ln : List.length (m_tables m0) = S n). { unfold m0. cbn [m_tables]. rewrite app_length. cbn. lia. }
  assert (ND : NoDup (map key (A ++ added n E ops))).
  { rewrite map_app, added_keys. apply NoDup_app_intro.
    - exact (lk_keys _ _ _ L).
    - unfold distinct_imports in D. clear -D. induction (filter is_import ops) as [|o l IH]; [constructor|]. cbn [map] in *. inversion D as [|? ? D1 D2]; subst. constructor; [|auto].
      intros X. apply D1. apply in_map_iff in X. destruct X as (o' & He & Hi). injection He as H1 H2. apply in_map_iff. exists o'. unfold slot_of. rewrite H1, H2. auto.
    - intros k Hk Hk'. apply in_map_iff in Hk. destruct Hk as ([[n0 o0] b0] & <- & Hi). apply (lk_inst _ _ _ L) in Hi. apply in_map_iff in Hk'. destruct Hk' as (o' & He & _). injection He as Hc _ _. fold n in Hi. lia. }
  destruct (link_ops n ops m0) as [m1| |] eqn:E1; cbn [bind] in H; [|discriminate H..].
  destruct (link_ops_linked ops n m0 E A m1 L0 P ltac:(lia) ND E1) as (L1 & P1 & N1). fold E' in L1.
  destruct (existsb (fun o => o_dir o =? DirExport) ops && negb match m_pending m1 with [] => true | _ => false end) eqn:Ec.
  - rewrite P1 in H. destruct (relink_linked (A ++ added n E ops) m1 E' [] [] m' L1 eq_refl H) as (R1 & R2 & R3). split; [exact R1|]. split; [exact R2|]. split; [apply rebind_settled|lia].
  - injection H as <-. assert (R : A' = A ++ added n E ops).
    { unfold A'. apply andb_false_iff in Ec. destruct Ec as [Ec|Ec].
      - apply settled_rebind. intros n0 o Hi. unfold E'. rewrite latest_no_export by exact Ec. apply in_app_iff in Hi. destruct Hi as [Hi|Hi]; [exact (St _ _ Hi)|exact (added_settled _ _ _ _ _ Ec Hi)].
      - apply (linked_rebind_all m1 E'); [exact L1|]. rewrite <- P1. destruct (m_pending m1); [reflexivity|discriminate Ec]. }
    rewrite R. split; [exact L1|]. split; [exact P1|]. split; [|lia]. rewrite <- R. apply rebind_settled.
Qed.
Lemma load_all_app : forall a b m, load_all (a ++ b) m = (m' <- load_all a m ;; load_all b m').
Proof. induction a as [|[f ops] a IH]; intros b m; [reflexivity|]. cbn [app load_all]. destruct (load f ops m); cbn [bind]; auto. Qed.
Lemma events_snoc : forall l n f ops, events_from n (l ++ [(f, ops)]) = events_from n l ++ map (pair (n + List.length l)%nat) ops.
Proof.
  induction l as [|[g o] l IH]; intros n f ops; cbn [app events_from List.length].
  - now rewrite app_nil_r, Nat.add_0_r.
  - rewrite IH, <- app_assoc. do 3 f_equal. f_equal. lia.
Qed.
Lemma first_some_snoc : forall {A} (l : list (option A)) x, first_some (l ++ [x]) = match first_some l with Some d => Some d | None => x end.
Proof. intros A l x. induction l as [|[y|] l IH]; cbn [app first_some]; auto. now destruct x. Qed.
Lemma bound_snoc : forall l x n seen o, (n <= List.length l)%nat ->
  bound (l ++ [x]) n seen o = match bound l n seen o with Some d => Some d | None => latest (events (l ++ [x])) (o_ns o) (o_name o) end.
Proof.
  intros l x n seen o H. unfold bound. rewrite app_length. cbn [List.length]. replace (List.length l + 1 - n)%nat with (S (List.length l - n)) by lia.
  rewrite seq_S, map_app. cbn [map]. replace (S n + (List.length l - n))%nat with (List.length (l ++ [x])) by (rewrite app_length; cbn [List.length]; lia). rewrite firstn_all.
  rewrite app_comm_cons, first_some_snoc.
  rewrite (map_ext_in _ (fun k => latest (events (firstn k l)) (o_ns o) (o_name o))); [reflexivity|].
  intros k Hk. apply in_seq in Hk. do 2 f_equal. rewrite firstn_app. replace (k - List.length l)%nat with 0%nat by lia. cbn [firstn]. now rewrite app_nil_r.
Qed.
Lemma added_in : forall ops n E i o, nth_error ops i = Some o -> is_import o = true ->
  In (n, o, latest (E ++ map (pair n) (firstn i ops)) (o_ns o) (o_name o)) (added n E ops).
Proof.
  induction ops as [|x ops IH]; intros n E i o Hi Ho; [destruct i; discriminate Hi|]. cbn [added]. apply in_app_iff. destruct i as [|i].
  - left. injection Hi as ->. rewrite Ho. cbn [firstn map]. rewrite app_nil_r. now left.
  - right. specialize (IH n (E ++ [(n, x)]) i o Hi Ho). rewrite <- app_assoc in IH. exact IH.
Qed.
Lemma added_fst : forall ops n E, map fst (added n E ops) = filter (fun e => is_import (snd e)) (map (pair n) ops).
Proof. induction ops as [|o ops IH]; intros n E; [reflexivity|]. cbn [added map filter snd]. rewrite map_app, IH. destruct (is_import o); reflexivity. Qed.
Record mesh_inv (l : list (bytes * list oper)) (m : mesh) (A : list entry) : Prop := {
  mi_linked : linked m (events l) A;
  mi_pending : m_pending m = todo A;
  mi_settled : settled (events l) A;
  mi_length : List.length (m_tables m) = List.length l;
  mi_bound : forall n f ops i o, nth_error l n = Some (f, ops) -> nth_error ops i = Some o -> is_import o = true ->
    In (n, o, bound l n (events (firstn n l) ++ map (pair n) (firstn i ops)) o) A;
  mi_imports : map fst A = filter (fun e => is_import (snd e)) (events l) }.
Lemma mesh_run : forall l m, Forall (fun x => distinct_imports (snd x)) l -> load_all l mesh_new = Ok m -> exists A, mesh_inv l m A.
Proof.
  induction l as [|[f ops] l IH] using rev_ind; intros m D H.
  - injection H as <-. exists []. constructor; try reflexivity.
    + constructor; try reflexivity; try (intros; contradiction).
      * intros n k i _. unfold handler. now destruct n.
      * constructor.
    + intros ? ? [].
    + intros [|n]; discriminate.
  - apply Forall_app in D. destruct D as [D1 D2]. inversion D2 as [|? ? D3 _]; subst. cbn [snd] in D3. rewrite load_all_app in H. destruct (load_all l mesh_new) as [m0| |] eqn:E0; cbn [bind] in H; [|discriminate H..].
    cbn [load_all] in H. destruct (load f ops m0) as [m1| |] eqn:E1; cbn [bind] in H; [|discriminate H..]. injection H as <-.
    destruct (IH m0 D1 eq_refl) as (A & [M1 M2 M3 M4 M5 M6]). destruct (load_linked f ops m0 (events l) A m1 M1 M2 M3 D3 E1) as (L1 & L2 & L3 & L4).
    assert (Ev : events (l ++ [(f, ops)]) = events l ++ map (pair (List.length (m_tables m0))) ops). { unfold events. rewrite events_snoc, M4. reflexivity. }
    set (n0 := List.length (m_tables m0)) in *. exists (map (rebind (events (l ++ [(f, ops)]))) (A ++ added n0 (events l) ops)). rewrite <- Ev in *.
    constructor; auto.
    + rewrite app_length. cbn. lia.
    + intros n g ops' i o Hn Hi Ho. assert (Hl : (n < List.length (l ++ [(f, ops)]))%nat) by (apply nth_error_Some; congruence). rewrite app_length in Hl. cbn [List.length] in Hl.
      rewrite bound_snoc by lia. destruct (Nat.eq_dec n (List.length l)) as [->|Hne].
      * rewrite nth_error_app2, Nat.sub_diag in Hn by lia. cbn in Hn. injection Hn as <- <-. rewrite firstn_app, firstn_all, Nat.sub_diag. cbn [firstn]. rewrite app_nil_r.
        replace (bound l (List.length l) _ o) with (latest (events l ++ map (pair (List.length l)) (firstn i ops)) (o_ns o) (o_name o)) by (unfold bound; rewrite Nat.sub_diag; cbn [seq map first_some]; destruct (latest _ (o_ns o) (o_name o)); reflexivity).
        apply in_map_iff. exists (n0, o, latest (events l ++ map (pair n0) (firstn i ops)) (o_ns o) (o_name o)). split.
        -- unfold rebind. cbn [snd fst]. rewrite M4. destruct (latest (events l ++ map (pair (List.length l)) (firstn i ops)) (o_ns o) (o_name o)); reflexivity.
        -- apply in_app_iff. right. now apply added_in.
      * assert (Hlt : (n < List.length l)%nat) by lia. rewrite nth_error_app1 in Hn by exact Hlt.
        rewrite firstn_app. replace (n - List.length l)%nat with 0%nat by lia. cbn [firstn]. rewrite app_nil_r. specialize (M5 n g ops' i o Hn Hi Ho).
        apply in_map_iff. eexists. split; [|apply in_app_iff; left; exact M5]. unfold rebind. cbn [snd fst]. destruct (bound l n _ o); reflexivity.
    + rewrite Ev, filter_app, <- M6, map_map, <- (added_fst ops n0 (events l)), <- map_app. apply map_ext. intros [[n o] b]. unfold rebind. cbn [snd fst]. now destruct b.
Qed.

(** ** C66 *)
Definition exported (l : list (bytes * list oper)) (o : oper) : Prop := exists n e, In (n, e) (events l) /\ serves (o_ns o) (o_name o) e.
Definition exportedb (l : list (bytes * list oper)) (o : oper) : bool :=
  existsb (fun e => (o_dir (snd e) =? 1) && (if list_eq_dec N.eq_dec (o_ns (snd e)) (o_ns o) then true else false) && (if list_eq_dec N.eq_dec (o_name (snd e)) (o_name o) then true else false)) (events l).
Lemma exportedb_spec : forall l o, exportedb l o = true <-> exported l o.
Proof.
  intros l o. unfold exportedb, exported, serves. rewrite existsb_exists. split.
  - intros ([n e] & Hi & H). cbn [snd] in H. exists n, e. split; [exact Hi|]. apply andb_true_iff in H. destruct H as [H H3]. apply andb_true_iff in H. destruct H as [H1 H2]. apply N.eqb_eq in H1.
    destruct (list_eq_dec N.eq_dec (o_ns e) (o_ns o)); [|discriminate H2]. destruct (list_eq_dec N.eq_dec (o_name e) (o_name o)); [|discriminate H3]. auto.
  - intros (n & e & Hi & H1 & H2 & H3). exists (n, e). split; [exact Hi|]. cbn [snd]. rewrite H1, H2, H3. cbn [N.eqb Pos.eqb andb]. destruct (list_eq_dec N.eq_dec (o_ns o) (o_ns o)); [|congruence]. destruct (list_eq_dec N.eq_dec (o_name o) (o_name o)); [reflexivity|congruence].
Qed.
Lemma latest_exported : forall l o, latest (events l) (o_ns o) (o_name o) = None <-> ~ exported l o.
Proof.
  intros l o. split.
  - intros H (n & e & Hi & Hs). exact (latest_some _ _ _ _ _ Hi Hs H).
  - intros H. destruct (latest (events l) (o_ns o) (o_name o)) as [d|] eqn:E; [|reflexivity]. exfalso. apply H. destruct (latest_from _ _ _ _ E) as (e & Hi & Hs & _). exists (d_inst d), e. auto.
Qed.
(** The imports still pending are exactly those no module exports, in order. *)
Theorem C66_pending_imports : forall l m, Forall (fun x => distinct_imports (snd x)) l -> load_all l mesh_new = Ok m ->
  m_pending m = filter (fun e => (o_dir (snd e) =? 2) && negb (exportedb l (snd e))) (events l).
Proof.
  intros l m D H. destruct (mesh_run l m D H) as (A & M). rewrite (mi_pending _ _ _ M).
  assert (S1 : forall n o b, In (n, o, b) A -> open (n, o, b) = negb (exportedb l o)).
  { intros n o b Hi. unfold open. cbn [snd]. destruct b as [d|].
    - destruct (lk_from _ _ _ (mi_linked _ _ _ M) _ _ _ Hi) as (e & He & Hs & _). symmetry. apply negb_false_iff, exportedb_spec. exists (d_inst d), e. auto.
    - symmetry. apply negb_true_iff. apply not_true_iff_false. rewrite exportedb_spec. apply latest_exported. exact (mi_settled _ _ _ M _ _ Hi). }
  transitivity (filter (fun e => negb (exportedb l (snd e))) (map fst A)).
  - unfold todo. clear -S1. induction A as [|[[n o] b] A IH]; [reflexivity|]. cbn [filter map]. rewrite (S1 n o b) by now left. cbn [fst snd].
    rewrite <- IH by (intros; apply S1; now right). destruct (exportedb l o); reflexivity.
  - rewrite (mi_imports _ _ _ M). clear. induction (events l) as [|[n o] E IH]; [reflexivity|]. cbn [filter snd]. unfold is_import. destruct (o_dir o =? 2); cbn [andb filter snd]; [destruct (negb (exportedb l o)); [f_equal|]; exact IH|exact IH].
Qed.
(** An import is linked, to an instance that exports the operation, if and only
    if some module exports it. *)
Theorem C66_imports_linked : forall l m n f ops o k, Forall (fun x => distinct_imports (snd x)) l -> load_all l mesh_new = Ok m ->
  nth_error l n = Some (f, ops) -> In o ops -> o_dir o = 2 -> kind_of (o_type o) = Some k ->
  (exported l o -> exists d e, handler m n k (o_index o) = Some d /\ In (d_inst d, e) (events l) /\ serves (o_ns o) (o_name o) e /\ o_index e = d_index d) /\
  (~ exported l o -> handler m n k (o_index o) = None).
Proof.
  intros l m n f ops o k D H Hn Hi Hd Hk. destruct (mesh_run l m D H) as (A & M). apply In_nth_error in Hi. destruct Hi as [i Hi].
  assert (Ho : is_import o = true) by (unfold is_import; now rewrite Hd). pose proof (mi_bound _ _ _ M _ _ _ _ _ Hn Hi Ho) as B.
  pose proof (lk_slot _ _ _ (mi_linked _ _ _ M) _ _ _ _ B Hk) as S. rewrite S. set (b := bound l n _ o) in *. split.
  - intros X. destruct b as [d|] eqn:Eb.
    + destruct (lk_from _ _ _ (mi_linked _ _ _ M) _ _ _ B) as (e & He & Hs & Hx). exists d, e. auto.
    + exfalso. pose proof (mi_settled _ _ _ M _ _ B) as Y. apply latest_exported in Y. contradiction.
  - intros X. destruct b as [d|] eqn:Eb; [|reflexivity]. exfalso. destruct (lk_from _ _ _ (mi_linked _ _ _ M) _ _ _ B) as (e & He & Hs & _). apply X. exists (d_inst d), e. auto.
Qed.
(** Loading never fails as long as no import has the index 2^32-1. *)
Lemma link_ok : forall n o m, o_index o < 4294967295 -> exists r, link n o m = Ok r.
Proof.
  intros n o m H. unfold link. destruct (find_export (o_ns o) (o_name o) m) as [d|]; [|eexists; reflexivity]. destruct (nth_error (m_tables m) n) as [t|]; [|eexists; reflexivity].
  destruct (set_handler_ok (o_type o) (o_index o) d t H) as [t' ->]. eexists. reflexivity.
Qed.
Lemma link_pending_same : forall n o m m', link n o m = Ok (Some m') -> m_pending m' = m_pending m.
Proof.
  intros n o m m' H. unfold link in H. destruct (find_export (o_ns o) (o_name o) m) as [d|]; [|discriminate H]. destruct (nth_error (m_tables m) n) as [t|]; [|injection H as <-; reflexivity].
  destruct (set_handler (o_type o) (o_index o) d t); cbn [bind] in H; [|discriminate H..]. assert (E := f_equal (fun r => match r with Ok (Some x) => m_pending x | _ => [] end) H). cbn in E. now rewrite <- E.
Qed.
Lemma relink_ok : forall p kept m, Forall (fun e => o_index (snd e) < 4294967295) p -> Forall (fun e => o_index (snd e) < 4294967295) kept ->
  exists m', relink p kept m = Ok m' /\ Forall (fun e => o_index (snd e) < 4294967295) (m_pending m').
Proof.
  induction p as [|[n o] p IH]; intros kept m Hp Hk; cbn [relink].
  - eexists. split; [reflexivity|exact Hk].
  - inversion Hp as [|? ? H1 H2]; subst. destruct (link_ok n o m H1) as [[m'|] ->]; cbn [bind]; apply IH; auto. apply Forall_app. auto.
Qed.
Lemma link_ops_ok : forall ops n m, Forall (fun o => o_index o < 4294967295) ops -> Forall (fun e => o_index (snd e) < 4294967295) (m_pending m) ->
  exists m', link_ops n ops m = Ok m' /\ Forall (fun e => o_index (snd e) < 4294967295) (m_pending m').
Proof.
  induction ops as [|o ops IH]; intros n m Ho Hp; cbn [link_ops]; [eexists; split; [reflexivity|exact Hp]|]. inversion Ho as [|? ? H1 H2]; subst.
  unfold link_op. destruct (o_dir o =? DirExport); [cbn [bind]; apply IH; auto|]. destruct (o_dir o =? DirImport); [|cbn [bind]; apply IH; auto].
  destruct (link_ok n o m H1) as [r Er]. rewrite Er. cbn [bind]. destruct r as [m'|]; cbn [bind].
  - apply IH; auto. now rewrite (link_pending_same _ _ _ _ Er).
  - apply IH; auto. cbn [with_pending m_pending]. apply Forall_app. auto.
Qed.
Theorem C66_loading_succeeds : forall l, Forall (fun x => Forall (fun o => o_index o < 4294967295) (snd x)) l -> exists m, load_all l mesh_new = Ok m.
Proof.
  intros l H. assert (G : Forall (fun e : nat * oper => o_index (snd e) < 4294967295) (m_pending mesh_new)) by constructor. revert G. generalize mesh_new.
  induction H as [|[f ops] l H1 _ IH]; intros m G; cbn [load_all]; [eexists; reflexivity|]. cbn [snd] in H1. unfold load.
  match goal with |- context [link_ops ?n ops ?m0] => destruct (link_ops_ok ops n m0 H1 G) as (m1 & -> & G1) end. cbn [bind].
  destruct (existsb (fun o => o_dir o =? DirExport) ops && negb match m_pending m1 with [] => true | _ => false end); [|cbn [bind]; now apply IH].
  destruct (relink_ok (m_pending m1) [] m1 G1 (Forall_nil _)) as (m2 & -> & G2). cbn [bind]. now apply IH.
Qed.
(** ... which panics when the operation is exported. *)
Definition Exp (ty i : N) (ns name : bytes) := {| o_index := i; o_type := ty; o_dir := 1; o_ns := ns; o_name := name |}.
Definition Imp (ty i : N) (ns name : bytes) := {| o_index := i; o_type := ty; o_dir := 2; o_ns := ns; o_name := name |}.
Theorem C66_last_index_refuted : load_all [([97], [Exp 1 0 [1] [2]]); ([98], [Imp 1 4294967295 [1] [2]])] mesh_new = Panic.
Proof. reflexivity. Qed.
(** The request type is not compared: an import for single calls is linked to an
    exported stream of the same name, and then calls the operation that has the
    same index in another table of the exporter. *)
Theorem C66_request_type_ignored_refuted :
  match load_all [([97], [Exp 3 7 [1] [2]; Exp 1 7 [1] [5]]); ([98], [Imp 1 0 [1] [2]])] mesh_new with
  | Ok m => handler m 1 RR 0 = Some {| d_inst := 0; d_index := 7 |} /\ m_pending m = []
  | _ => False
  end.
Proof. split; reflexivity. Qed.

(** Imports before, beside and after their exporters; one stays open. *)
Definition C66_loads : list (bytes * list oper) :=
  [([97], [Imp 1 0 [1] [2]; Imp 3 0 [1] [3]; Imp 2 4 [1] [2]]);
   ([98], [Imp 4 1 [1] [4]; Exp 1 0 [1] [2]; Exp 4 0 [1] [4]]);
   ([99], [Exp 1 5 [1] [2]; Imp 1 0 [1] [2]])].
Example C66_example :
  Forall (fun x => distinct_imports (snd x)) C66_loads /\ Forall (fun x => Forall (fun o => o_index o < 4294967295) (snd x)) C66_loads /\
  match load_all C66_loads mesh_new with
  | Ok m => m_pending m = [(0%nat, Imp 3 0 [1] [3])] /\ handler m 0 RR 0 = Some {| d_inst := 1; d_index := 0 |} /\
            handler m 0 FNF 4 = Some {| d_inst := 1; d_index := 0 |} /\ handler m 1 RC 1 = Some {| d_inst := 1; d_index := 0 |} /\
            handler m 2 RR 0 = Some {| d_inst := 2; d_index := 5 |} /\ handler m 0 RS 0 = None
  | _ => False
  end.
Proof.
  split; [|split].
  - repeat constructor; cbn; intuition discriminate.
  - repeat constructor.
  - vm_compute. repeat split.
Qed.
Print Assumptions C66_pending_imports.
Print Assumptions C66_imports_linked.
Print Assumptions C66_loading_succeeds.

(** ** C67 *)
(** A call through the mesh reaches the last exporter, with its index in the
    first four bytes of the metadata and the rest of it unchanged. *)
Theorem C67_lookup_reaches_latest : forall l m ns name a rest, Forall (fun x => distinct_imports (snd x)) l -> load_all l mesh_new = Ok m -> len a = 4 ->
  request ns name (Some (a ++ rest)) m =
  match latest (events l) ns name with
  | None => None
  | Some d => Some (Ok (d_inst d, Some (be 4 (d_index d) ++ rest)))
  end.
Proof.
  intros l m ns name a rest D H Ha. destruct (mesh_run l m D H) as (A & M). unfold request. rewrite (lk_find _ _ _ (mi_linked _ _ _ M)). destruct (latest (events l) ns name) as [d|]; [|reflexivity].
  unfold forward. rewrite len_app, Ha. destruct (N.ltb_spec (4 + len rest) 4); [lia|]. do 5 f_equal. rewrite dropN_skipn. unfold len in Ha. rewrite skipn_app. replace (N.to_nat 4) with (List.length a) by lia. now rewrite skipn_all, Nat.sub_diag.
Qed.
(** An import calls the exporter that was current when it was linked. *)
Theorem C67_import_bound_when_linked : forall l m n f ops i o k, Forall (fun x => distinct_imports (snd x)) l -> load_all l mesh_new = Ok m ->
  nth_error l n = Some (f, ops) -> nth_error ops i = Some o -> o_dir o = 2 -> kind_of (o_type o) = Some k ->
  handler m n k (o_index o) = bound l n (events (firstn n l) ++ map (pair n) (firstn i ops)) o.
Proof.
  intros l m n f ops i o k D H Hn Hi Hd Hk. destruct (mesh_run l m D H) as (A & M). assert (Ho : is_import o = true) by (unfold is_import; now rewrite Hd).
  exact (lk_slot _ _ _ (mi_linked _ _ _ M) _ _ _ _ (mi_bound _ _ _ M _ _ _ _ _ Hn Hi Ho) Hk).
Qed.
(** Once linked, it stays so whatever is loaded later. *)
Theorem C67_links_are_permanent : forall l l' m m' n k i d, Forall (fun x => distinct_imports (snd x)) (l ++ l') ->
  load_all l mesh_new = Ok m -> load_all (l ++ l') mesh_new = Ok m' -> handler m n k i = Some d -> handler m' n k i = Some d.
Proof.
  induction l' as [|[f ops] l' IH] using rev_ind; intros m m' n k i d D H H' Hd; [rewrite app_nil_r in H'; congruence|].
  rewrite app_assoc in D, H'. assert (D' := D). apply Forall_app in D'. destruct D' as [D1 D2]. rewrite load_all_app in H'. destruct (load_all (l ++ l') mesh_new) as [m1| |] eqn:E1; cbn [bind] in H'; [|discriminate H'..].
  specialize (IH m m1 n k i d D1 H eq_refl Hd). destruct (mesh_run _ _ D1 E1) as (A & [M1 M2 M3 M4 _ _]). inversion D2 as [|? ? D3 _]; subst.
  cbn [load_all] in H'. destruct (load f ops m1) as [m2| |] eqn:E2; cbn [bind] in H'; [|discriminate H'..]. injection H' as <-.
  destruct (load_linked f ops m1 _ A m2 M1 M2 M3 D3 E2) as (L & _).
  assert (X : exists o b, In (n, o, b) A /\ kind_of (o_type o) = Some k /\ o_index o = i).
  { destruct (existsb (fun e : entry => Nat.eqb (fst (fst e)) n && (match kind_of (o_type (snd (fst e))) with Some k' => match k, k' with RR, RR | FNF, FNF | RS, RS | RC, RC => true | _, _ => false end | None => false end) && (o_index (snd (fst e)) =? i)) A) eqn:Ex.
    - apply existsb_exists in Ex. destruct Ex as ([[n0 o] b] & Hi & Hx). cbn [fst snd] in Hx. apply andb_true_iff in Hx. destruct Hx as [Hx H3]. apply andb_true_iff in Hx. destruct Hx as [H1 H2].
      apply Nat.eqb_eq in H1. subst n0. apply N.eqb_eq in H3. exists o, b. split; [exact Hi|]. split; [|exact H3]. destruct (kind_of (o_type o)) as [k'|]; [|discriminate H2]. apply same_kind in H2. now subst.
    - exfalso. rewrite (lk_rest _ _ _ M1 n k i) in IH; [discriminate IH|]. intros o b Hi Hk Hx. apply not_true_iff_false in Ex. apply Ex. apply existsb_exists. exists (n, o, b). split; [exact Hi|].
      cbn [fst snd]. rewrite Nat.eqb_refl, Hk, Hx, N.eqb_refl, (proj2 (same_kind k k) eq_refl). reflexivity. }
  destruct X as (o & b & Hi & Hk & <-). pose proof (lk_slot _ _ _ M1 _ _ _ _ Hi Hk) as B. rewrite IH in B. subst b.
  apply (lk_slot _ _ _ L n o (Some d) k); [|exact Hk]. apply in_map_iff. exists (n, o, Some d). split; [reflexivity|]. apply in_app_iff. now left.
Qed.
(** Loading a file again closes the instance it replaces, but the imports linked
    to that instance keep calling it; and so does the mesh itself for exports
    the new version no longer has. *)
Theorem C67_replaced_instance_refuted :
  match load_all [([97], [Exp 1 0 [1] [2]; Exp 1 1 [1] [3]]); ([98], [Imp 1 0 [1] [2]]); ([97], [Exp 1 4 [1] [2]])] mesh_new with
  | Ok m => m_closed m = [0%nat] /\ handler m 1 RR 0 = Some {| d_inst := 0; d_index := 0 |} /\
            find_export [1] [2] m = Some {| d_inst := 2; d_index := 4 |} /\ find_export [1] [3] m = Some {| d_inst := 0; d_index := 1 |}
  | _ => False
  end.
Proof. repeat split. Qed.
(** Metadata shorter than four bytes panics. *)
Theorem C67_short_metadata_refuted : forall d b, len b < 4 -> forward d (Some b) = Panic.
Proof. intros d b H. unfold forward. destruct (N.ltb_spec (len b) 4); [reflexivity|lia]. Qed.

Example C67_example :
  Forall (fun x => distinct_imports (snd x)) C66_loads /\ bound C66_loads 0 [] (Imp 1 0 [1] [2]) = Some {| d_inst := 1; d_index := 0 |} /\
  latest (events C66_loads) [1] [2] = Some {| d_inst := 2; d_index := 5 |} /\
  match load_all C66_loads mesh_new with Ok m => request [1] [2] (Some [9; 9; 9; 9; 0; 0; 0; 1]) m = Some (Ok (2%nat, Some [0; 0; 0; 5; 0; 0; 0; 1])) | _ => False end.
Proof. split; [exact (proj1 C66_example)|]. vm_compute. repeat split. Qed.
Print Assumptions C67_lookup_reaches_latest.
Print Assumptions C67_import_bound_when_linked.
Print Assumptions C67_links_are_permanent.
