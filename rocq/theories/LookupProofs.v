(** The linked list of proxy/lookup.go refines a simple list machine. *)
From Verif Require Import Base BaseFacts LookupModel.

(** ** Specification machine.  The chain is [stuck ++ live]: streams in [stuck]
    can no longer be removed; the first stream ever added is always stuck. *)
Record table := { t_stuck : list stream; t_live : list stream; t_count : Z }.
Definition table_init : table := {| t_stuck := []; t_live := []; t_count := 0%Z |}.
Definition has_id (id : N) (s : stream) : bool := fst s =? id.
Fixpoint delete_first (id : N) (l : list stream) : list stream :=
  match l with
  | [] => []
  | s :: l' => if has_id id s then l' else s :: delete_first id l'
  end.
(** The entry after the first stuck stream with this id becomes stuck. *)
Fixpoint at_end (id : N) (l : list stream) : bool :=
  match l with
  | [] => false
  | s :: l' => if has_id id s then match l' with [] => true | _ => false end else at_end id l'
  end.
Definition table_add (s : stream) (t : table) : table :=
  match t_stuck t with
  | [] => {| t_stuck := [s]; t_live := []; t_count := (t_count t + 1)%Z |}
  | _ => {| t_stuck := t_stuck t; t_live := t_live t ++ [s]; t_count := (t_count t + 1)%Z |}
  end.
Definition table_remove (id : N) (t : table) : table :=
  if existsb (has_id id) (t_stuck t) then
    match t_live t with
    | s :: l => if at_end id (t_stuck t)
                then {| t_stuck := t_stuck t ++ [s]; t_live := l; t_count := (t_count t - 1)%Z |}
                else {| t_stuck := t_stuck t; t_live := t_live t; t_count := (t_count t - 1)%Z |}
    | [] => {| t_stuck := t_stuck t; t_live := []; t_count := (t_count t - 1)%Z |}
    end
  else if existsb (has_id id) (t_live t) then
    {| t_stuck := t_stuck t; t_live := delete_first id (t_live t); t_count := (t_count t - 1)%Z |}
  else t.
Definition table_get (id : N) (t : table) : option stream := List.find (has_id id) (t_stuck t ++ t_live t).
Definition table_step (t : table) (c : lk_call) : table :=
  match c with LAdd s => table_add s t | LRemove id => table_remove id t end.
Definition table_run (calls : list lk_call) : table := fold_left table_step calls table_init.

(** ** Heap facts *)
Lemma upd_length : forall A (l : list A) i f, List.length (upd l i f) = List.length l.
Proof. induction l; intros [|i] f; cbn; auto. Qed.
Lemma nth_upd_same : forall A (l : list A) i f x, nth_error l i = Some x -> nth_error (upd l i f) i = Some (f x).
Proof. induction l as [|y l IH]; intros [|i] f x H; cbn in *; try discriminate; [now injection H as ->|auto]. Qed.
Lemma nth_upd_other : forall A (l : list A) i j f, i <> j -> nth_error (upd l i f) j = nth_error l j.
Proof. induction l as [|y l IH]; intros [|i] [|j] f H; cbn; auto; try congruence. Qed.

(** Chain entries: address, stream, and whether [prev] points back. *)
Definition entry := (nat * stream * bool)%type.
Definition addr (e : entry) : nat := fst (fst e).
Definition strm (e : entry) : stream := snd (fst e).
Definition addrs (l : list entry) := map addr l.

Fixpoint lseg (h : list node) (p pred : option nat) (l : list entry) (q : option nat) : Prop :=
  match l with
  | [] => p = q
  | (a, s, lk) :: l' =>
      p = Some a /\ exists n, nth_error h a = Some n /\ n_stream n = s
        /\ n_prev n = (if lk then pred else None) /\ lseg h (n_next n) (Some a) l' q
  end.
Definition last_addr (l : list entry) (d : option nat) : option nat :=
  match rev l with [] => d | e :: _ => Some (addr e) end.
Lemma last_addr_cons : forall e l d, last_addr (e :: l) d = last_addr l (Some (addr e)).
Proof.
  intros e l d. unfold last_addr. cbn [rev]. destruct (rev l) as [|x r] eqn:E; [reflexivity|].
  reflexivity.
Qed.
Lemma last_addr_snoc : forall l e d, last_addr (l ++ [e]) d = Some (addr e).
Proof. intros. unfold last_addr. now rewrite rev_app_distr. Qed.
Lemma lseg_app : forall h l1 l2 p pred q,
  lseg h p pred (l1 ++ l2) q <-> exists m, lseg h p pred l1 m /\ lseg h m (last_addr l1 pred) l2 q.
Proof.
  induction l1 as [|[[a s] lk] l1 IH]; intros l2 p pred q.
  - cbn. split; [intros H; exists p; auto|intros (m & -> & H); exact H].
  - rewrite last_addr_cons. cbn [app lseg addr fst]. split.
    + intros (-> & n & H1 & H2 & H3 & H4). apply IH in H4. destruct H4 as (m & H4 & H5).
      exists m. split; [|exact H5]. split; [reflexivity|]. exists n. auto.
    + intros (m & (-> & n & H1 & H2 & H3 & H4) & H5). split; [reflexivity|].
      exists n. repeat split; auto. apply IH. eauto.
Qed.
Lemma lseg_upd : forall h l p pred q i f, lseg h p pred l q -> ~ In i (addrs l) -> lseg (upd h i f) p pred l q.
Proof.
  induction l as [|[[a s] lk] l IH]; intros p pred q i f H Hi; [exact H|].
  cbn [lseg addrs map addr fst In] in *. destruct H as (-> & n & H1 & H2 & H3 & H4).
  split; [reflexivity|]. exists n. rewrite nth_upd_other by auto.
  split; [exact H1|]. split; [exact H2|]. split; [exact H3|]. apply IH; auto.
Qed.
Lemma lseg_ext : forall h l p pred q x, lseg h p pred l q -> lseg (h ++ [x]) p pred l q.
Proof.
  induction l as [|[[a s] lk] l IH]; intros p pred q x H; [exact H|].
  cbn [lseg] in *. destruct H as (-> & n & H1 & H2 & H3 & H4).
  split; [reflexivity|]. exists n. rewrite nth_error_app1 by (apply nth_error_Some; congruence).
  repeat split; auto.
Qed.
Lemma lseg_addr_lt : forall h l p pred q a, lseg h p pred l q -> In a (addrs l) -> (a < List.length h)%nat.
Proof.
  induction l as [|[[b s] lk] l IH]; intros p pred q a H Ha; [destruct Ha|].
  cbn [lseg addrs map addr fst In] in *. destruct H as (-> & n & H1 & H2 & H3 & H4).
  destruct Ha as [<-|Ha]; [apply nth_error_Some; congruence|eauto].
Qed.

(** [find] along a chain. *)
Lemma find_chain : forall h id l fuel p pred, lseg h p pred l None -> (List.length l <= fuel)%nat ->
  find_from fuel h p id = option_map addr (List.find (fun e => has_id id (strm e)) l).
Proof.
  induction l as [|[[a s] lk] l IH]; intros fuel p pred H Hf.
  - cbn in H. subst p. destruct fuel; reflexivity.
  - cbn [lseg] in H. destruct H as (-> & n & H1 & H2 & H3 & H4). cbn [List.length] in Hf.
    destruct fuel as [|fuel]; [lia|]. cbn [find_from List.find strm fst snd]. rewrite H1, H2.
    unfold has_id at 1. destruct (fst s =? id); [reflexivity|]. apply (IH fuel _ (Some a)); [exact H4|lia].
Qed.
Lemma last_chain : forall h l a s lk fuel pred, lseg h (Some a) pred ((a, s, lk) :: l) None ->
  (List.length l <= fuel)%nat -> Some (last_from fuel h a) = last_addr ((a, s, lk) :: l) None.
Proof.
  induction l as [|[[b s'] lk'] l IH]; intros a s lk fuel pred H Hf.
  - cbn [lseg] in H. destruct H as (_ & n & H1 & H2 & H3 & H4).
    destruct fuel; cbn; [reflexivity|]. now rewrite H1, H4.
  - cbn [lseg] in H. destruct H as (_ & n & H1 & H2 & H3 & H4 & H5). cbn [List.length] in Hf.
    destruct fuel as [|fuel]; [lia|]. cbn [last_from]. rewrite H1, H4.
    rewrite last_addr_cons. cbn [addr fst]. rewrite (IH b s' lk' fuel (Some a)); [|split; [reflexivity|exact H5]|lia].
    rewrite !last_addr_cons. reflexivity.
Qed.

(** ** The refinement relation *)
Definition flags (stuck live : list entry) : Prop :=
  Forall (fun e => snd e = false) stuck /\ Forall (fun e => snd e = true) live.
Definition refines (l : lookup) (t : table) : Prop :=
  exists stuck live,
    lseg (lk_heap l) (lk_head l) None (stuck ++ live) None
    /\ NoDup (addrs (stuck ++ live))
    /\ (List.length (stuck ++ live) <= List.length (lk_heap l))%nat
    /\ flags stuck live /\ (stuck = [] -> live = [])
    /\ map strm stuck = t_stuck t /\ map strm live = t_live t /\ lk_count l = t_count t.

Lemma find_map_strm : forall id l,
  List.find (has_id id) (map strm l) = option_map strm (List.find (fun e => has_id id (strm e)) l).
Proof. induction l as [|e l IH]; cbn; [reflexivity|]. now destruct (has_id id (strm e)). Qed.
Lemma find_split : forall A (f : A -> bool) l x, List.find f l = Some x ->
  exists l1 l2, l = l1 ++ x :: l2 /\ f x = true /\ Forall (fun y => f y = false) l1.
Proof.
  induction l as [|y l IH]; intros x H; cbn in H; [discriminate|].
  destruct (f y) eqn:E.
  - injection H as ->. exists [], l. auto.
  - destruct (IH x H) as (l1 & l2 & -> & H1 & H2). exists (y :: l1), l2. auto.
Qed.
Lemma find_none_exists : forall A (f : A -> bool) l, List.find f l = None -> existsb f l = false.
Proof. induction l as [|y l IH]; cbn; auto. destruct (f y); [discriminate|auto]. Qed.
Lemma existsb_map_strm : forall id l, existsb (has_id id) (map strm l) = existsb (fun e => has_id id (strm e)) l.
Proof. induction l; cbn; congruence. Qed.
Lemma existsb_false_forall : forall A (f : A -> bool) l, Forall (fun y => f y = false) l -> existsb f l = false.
Proof. induction 1; cbn; [reflexivity|]. now rewrite H. Qed.

Lemma lseg_find : forall h e l p pred q, lseg h p pred l q -> In e l -> exists n, nth_error h (addr e) = Some n /\ n_stream n = strm e.
Proof.
  induction l as [|[[a s] lk] l IH]; intros p pred q H Hi; [destruct Hi|].
  cbn [lseg] in H. destruct H as (-> & n & H1 & H2 & H3 & H4).
  destruct Hi as [<-|Hi]; [exists n; auto|eauto].
Qed.

Lemma refines_get : forall l t id, refines l t -> lookup_get l id = table_get id t.
Proof.
  intros l t id (stuck & live & H1 & H2 & H3 & H4 & H5 & H6 & H7 & H8).
  unfold lookup_get, table_get, find. rewrite (find_chain _ id (stuck ++ live) _ _ None H1 H3).
  rewrite <- H6, <- H7, <- map_app, find_map_strm.
  destruct (List.find (fun e => has_id id (strm e)) (stuck ++ live)) as [e|] eqn:E; [|reflexivity].
  cbn [option_map]. apply find_some in E. destruct E as [E _].
  destruct (lseg_find _ _ _ _ _ _ H1 E) as (n & -> & <-). reflexivity.
Qed.
Lemma refines_init : refines lookup_init table_init.
Proof.
  exists [], []. repeat split; auto; constructor.
Qed.

Lemma addrs_app : forall a b, addrs (a ++ b) = addrs a ++ addrs b.
Proof. intros. apply map_app. Qed.
Lemma NoDup_snoc : forall A (l : list A) x, NoDup l -> ~ In x l -> NoDup (l ++ [x]).
Proof.
  intros A l x H Hx. apply NoDup_rev in H. rewrite <- (rev_involutive (l ++ [x])). apply NoDup_rev.
  rewrite rev_app_distr. cbn. constructor; [|exact H]. now rewrite <- in_rev.
Qed.

Lemma refines_add : forall l t s, refines l t -> refines (lookup_add s l) (table_add s t).
Proof.
  intros l t s (stuck & live & H1 & H2 & H3 & (H4a & H4b) & H5 & H6 & H7 & H8).
  unfold lookup_add, table_add.
  destruct stuck as [|[[a s0] lk] stuck].
  - rewrite (H5 eq_refl) in *. cbn [app lseg] in H1. rewrite H1. cbn [map] in H6. rewrite <- H6.
    exists [(List.length (lk_heap l), s, false)], []. cbn [app lseg lk_heap lk_head addrs map addr fst strm snd].
    split.
    { split; [reflexivity|]. eexists. rewrite nth_error_app2, Nat.sub_diag by lia. cbn. repeat split; reflexivity. }
    split; [repeat constructor; intros []|].
    split; [rewrite app_length; cbn; lia|].
    split; [split; repeat constructor|]. split; [discriminate|].
    cbn [t_stuck t_live t_count lk_count]. rewrite H8. auto.
  - cbn [app lseg] in H1. assert (Hh : lk_head l = Some a) by apply H1.
    rewrite Hh. cbn [map] in H6. rewrite <- H6. clear H5.
    set (h := lk_heap l) in *. set (new := List.length h) in *.
    set (nn := {| n_prev := None; n_next := None; n_stream := s |}).
    set (ch := ((a, s0, lk) :: stuck) ++ live) in *.
    assert (Hch : lseg h (Some a) None ch None).
    { unfold ch. cbn [app lseg]. destruct H1 as [_ H1]. split; [reflexivity|exact H1]. }
    assert (Hx : lseg (h ++ [nn]) (Some a) None ch None) by now apply lseg_ext.
    assert (Hcur : Some (last_from (List.length (h ++ [nn])) (h ++ [nn]) a) = last_addr ch None).
    { apply (last_chain (h ++ [nn]) (stuck ++ live) a s0 lk _ None); [exact Hx|].
      rewrite (app_length h). unfold ch, new in H3. cbn [app List.length] in H3. unfold entry in *. lia. }
    set (cur := last_from (List.length (h ++ [nn])) (h ++ [nn]) a) in *.
    (* the last entry of the chain *)
    assert (Hlast : exists ch0 s1 lk1, ch = ch0 ++ [(cur, s1, lk1)]).
    { destruct (exists_last (l := ch) ltac:(discriminate)) as (ch0 & [[c s1] lk1] & E).
      exists ch0, s1, lk1. rewrite E in Hcur. rewrite last_addr_snoc in Hcur. cbn [addr fst] in Hcur.
      injection Hcur as ->. exact E. }
    destruct Hlast as (ch0 & s1 & lk1 & Ech).
    assert (Hnew : ~ In new (addrs ch)).
    { intros C. apply (lseg_addr_lt _ _ _ _ _ _ Hch) in C. unfold new in C. lia. }
    assert (Hcn : cur <> new).
    { intros C. apply Hnew. rewrite Ech, addrs_app. apply in_or_app. right. left. exact C. }
    assert (Hc0 : ~ In cur (addrs ch0)).
    { assert (HN : NoDup (addrs ch)) by exact H2. rewrite Ech, addrs_app in HN. cbn [addrs map addr fst] in HN.
      apply NoDup_remove_2 in HN. now rewrite app_nil_r in HN. }
    set (h1 := upd (h ++ [nn]) new (set_prev (Some cur))).
    set (h2 := upd h1 cur (set_next (Some new))).
    assert (Hn1 : nth_error h1 new = Some {| n_prev := Some cur; n_next := None; n_stream := s |}).
    { unfold h1. rewrite (nth_upd_same _ _ _ _ nn); [reflexivity|].
      rewrite nth_error_app2 by (unfold new; lia). unfold new. now rewrite Nat.sub_diag. }
    assert (Hch1 : lseg h1 (Some a) None ch None) by now apply lseg_upd.
    assert (Hch2 : lseg h2 (Some a) None (ch ++ [(new, s, true)]) None).
    { rewrite Ech in Hch1. rewrite Ech. apply lseg_app in Hch1. destruct Hch1 as (m & G1 & G2).
      rewrite <- app_assoc. cbn [app]. apply lseg_app. exists m. split; [now apply lseg_upd|].
      cbn [lseg] in G2. destruct G2 as (-> & n & G3 & G4 & G5 & G6). cbn [lseg].
      split; [reflexivity|]. exists (set_next (Some new) n). split; [now apply nth_upd_same|].
      cbn [set_next n_stream n_prev n_next]. split; [exact G4|]. split; [exact G5|].
      split; [reflexivity|]. eexists. unfold h2. rewrite nth_upd_other by exact Hcn. split; [exact Hn1|].
      cbn. auto. }
    exists ((a, s0, lk) :: stuck), (live ++ [(new, s, true)]).
    cbn [lk_heap lk_head lk_count t_stuck t_live t_count].
    rewrite app_assoc. fold ch. fold h2.
    split; [exact Hch2|].
    split.
    { rewrite addrs_app. apply NoDup_snoc; [exact H2|exact Hnew]. }
    split.
    { unfold h2, h1. rewrite !upd_length, !app_length. unfold ch, new in *. rewrite !app_length in H3.
      cbn [List.length] in *. unfold entry in *. lia. }
    split.
    { split; [exact H4a|]. apply Forall_app. split; [exact H4b|repeat constructor]. }
    split; [discriminate|]. split; [reflexivity|]. split; [|now rewrite H8].
    rewrite map_app, H7. reflexivity.
Qed.

Lemma at_end_last : forall id l s, Forall (fun y => has_id id y = false) l -> has_id id s = true ->
  at_end id (l ++ [s]) = true.
Proof.
  induction 1 as [|y l Hy _ IH]; intros Hs; cbn [app at_end].
  - now rewrite Hs.
  - rewrite Hy. auto.
Qed.
Lemma at_end_inner : forall id l s x r, Forall (fun y => has_id id y = false) l -> has_id id s = true ->
  at_end id (l ++ s :: x :: r) = false.
Proof.
  induction 1 as [|y l Hy _ IH]; intros Hs; cbn [app at_end].
  - now rewrite Hs.
  - rewrite Hy. auto.
Qed.
Lemma delete_first_split : forall id l s r, Forall (fun y => has_id id y = false) l -> has_id id s = true ->
  delete_first id (l ++ s :: r) = l ++ r.
Proof.
  induction 1 as [|y l Hy _ IH]; intros Hs; cbn [app delete_first].
  - now rewrite Hs.
  - rewrite Hy. f_equal. auto.
Qed.
Lemma app_split_at : forall A (a b l1 : list A) x l2, a ++ b = l1 ++ x :: l2 ->
  (exists a2, a = l1 ++ x :: a2 /\ l2 = a2 ++ b) \/ (exists b1, l1 = a ++ b1 /\ b = b1 ++ x :: l2).
Proof.
  induction a as [|y a IH]; intros b l1 x l2 H.
  - right. exists l1. auto.
  - destruct l1 as [|z l1].
    + left. cbn in H. injection H as -> <-. exists a. auto.
    + cbn in H. injection H as -> H. destruct (IH _ _ _ _ H) as [(a2 & -> & ->)|(b1 & -> & ->)].
      * left. exists a2. auto.
      * right. exists b1. auto.
Qed.
Lemma Forall_map_strm : forall id l, Forall (fun e => has_id id (strm e) = false) l ->
  Forall (fun y => has_id id y = false) (map strm l).
Proof. induction 1; constructor; auto. Qed.

Lemma refines_remove : forall l t id, refines l t -> refines (lookup_remove id l) (table_remove id t).
Proof.
  intros l t id (stuck & live & H1 & H2 & H3 & (H4a & H4b) & H5 & H6 & H7 & H8).
  unfold lookup_remove, table_remove, find. rewrite (find_chain _ id (stuck ++ live) _ _ None H1 H3).
  rewrite <- H6, <- H7, !existsb_map_strm.
  destruct (List.find (fun e => has_id id (strm e)) (stuck ++ live)) as [[[a s] lk]|] eqn:E.
  2:{ apply find_none_exists in E. rewrite existsb_app in E. apply orb_false_iff in E. destruct E as [-> ->].
      exists stuck, live. repeat split; auto. }
  cbn [option_map addr fst].
  destruct (find_split _ _ _ _ E) as (l1 & l2 & El & Hid & Hl1). cbn [strm fst snd] in Hid.
  assert (Hseg := H1). rewrite El in Hseg. apply lseg_app in Hseg. destruct Hseg as (m & G1 & G2).
  cbn [lseg] in G2. destruct G2 as (-> & n & G3 & G4 & G5 & G6). rewrite G3.
  assert (HN := H2). rewrite El, addrs_app in HN. cbn [addrs map addr fst] in HN.
  destruct (app_split_at _ _ _ _ _ _ El) as [(a2 & Es & ->)|(b1 & -> & Eb)].
  - (* the stream is stuck *)
    assert (Hlk : lk = false).
    { rewrite Es in H4a. apply Forall_elt in H4a. exact H4a. }
    subst lk. rewrite G5.
    assert (Hex : existsb (fun e => has_id id (strm e)) stuck = true).
    { rewrite Es, existsb_app. cbn [existsb strm fst snd]. rewrite Hid. now rewrite orb_true_r. }
    rewrite Hex.
    destruct a2 as [|[[b sb] lb] a2].
    + (* last stuck entry *)
      cbn [app] in G6. destruct live as [|[[b sb] lb] live].
      * cbn [lseg] in G6. rewrite G6. exists stuck, []. cbn [lk_heap lk_head lk_count t_stuck t_live t_count].
        repeat split; auto. now rewrite H8.
      * cbn [lseg] in G6. destruct G6 as (G6 & nb & K1 & K2 & K3 & K4). rewrite G6.
        cbn [map]. rewrite Es, map_app. cbn [map strm fst snd].
        rewrite at_end_last by (auto using Forall_map_strm).
        exists (l1 ++ [(a, s, false); (b, sb, false)]), live.
        cbn [lk_heap lk_head lk_count t_stuck t_live t_count].
        assert (Hb : ~ In b (addrs l1) /\ a <> b /\ ~ In b (addrs live)).
        { clear -HN. cbn [app map addr fst] in HN. change (map addr l1) with (addrs l1) in HN.
          change (map addr live) with (addrs live) in HN.
          pose proof (NoDup_remove_2 _ _ _ HN) as D1. apply NoDup_remove_1 in HN.
          pose proof (NoDup_remove_2 _ _ _ HN) as D2. rewrite in_app_iff in *. cbn [In] in *.
          repeat split; intro; subst; tauto. }
        destruct Hb as (B1 & B2 & B3).
        split.
        { rewrite <- app_assoc. apply lseg_app. exists (Some a). split; [now apply lseg_upd|].
          cbn [app lseg]. split; [reflexivity|]. exists n. rewrite nth_upd_other by auto.
          repeat split; auto. exists (set_prev None nb). split; [now apply nth_upd_same|].
          cbn [set_prev n_stream n_prev n_next]. repeat split; auto. now apply lseg_upd. }
        split.
        { rewrite Es in H2. rewrite !addrs_app in *. cbn [addrs map addr fst] in *.
          rewrite <- !app_assoc in *. exact H2. }
        split.
        { rewrite upd_length. rewrite Es, !app_length in *. cbn [List.length] in *. unfold entry in *. lia. }
        split.
        { split.
          - rewrite Es in H4a. apply Forall_app in H4a. apply Forall_app. split; [apply H4a|repeat constructor].
          - now inversion H4b. }
        split; [intros C; destruct l1; discriminate|].
        split; [rewrite map_app; cbn [map strm fst snd]; now rewrite <- app_assoc|].
        split; [reflexivity|now rewrite H8].
    + (* an inner stuck entry: nothing changes but the count *)
      cbn [app lseg] in G6. destruct G6 as (G6 & nb & K1 & K2 & K3 & K4). rewrite G6.
      assert (Hlb : lb = false).
      { rewrite Es in H4a. apply Forall_app in H4a. destruct H4a as [_ H4a]. inversion H4a as [|? ? _ Q]; subst.
        inversion Q; subst. assumption. }
      subst lb.
      assert (Hend : at_end id (map strm stuck) = false).
      { rewrite Es, map_app. cbn [map strm fst snd]. apply at_end_inner; auto using Forall_map_strm. }
      rewrite Hend.
      assert (Hb : ~ In b (addrs l1) /\ a <> b /\ ~ In b (addrs (a2 ++ live))).
      { clear -HN. cbn [app map addr fst] in HN. change (map addr l1) with (addrs l1) in HN.
        change (map addr (a2 ++ live)) with (addrs (a2 ++ live)) in HN.
        pose proof (NoDup_remove_2 _ _ _ HN) as D1. apply NoDup_remove_1 in HN.
        pose proof (NoDup_remove_2 _ _ _ HN) as D2. rewrite in_app_iff in *. cbn [In] in *.
        repeat split; intro; subst; tauto. }
      destruct Hb as (B1 & B2 & B3).
      assert (R : refines
        {| lk_heap := upd (lk_heap l) b (set_prev None); lk_count := (lk_count l - 1)%Z;
           lk_head := lk_head l; lk_tail := lk_tail l |}
        {| t_stuck := map strm stuck; t_live := map strm live; t_count := (t_count t - 1)%Z |}).
      { exists stuck, live. cbn [lk_heap lk_head lk_count t_stuck t_live t_count].
        split.
        { rewrite El. apply lseg_app. exists (Some a). split; [now apply lseg_upd|].
          cbn [app lseg]. split; [reflexivity|]. exists n. rewrite nth_upd_other by auto.
          repeat split; auto. exists (set_prev None nb). split; [now apply nth_upd_same|].
          cbn [set_prev n_stream n_prev n_next]. repeat split; auto. now apply lseg_upd. }
        split; [exact H2|]. split; [now rewrite upd_length|]. split; [split; assumption|].
        split; [assumption|]. repeat split; auto. now rewrite H8. }
      destruct (map strm live) eqn:Em; exact R.
  - (* a removable stream *)
    assert (Hlk : lk = true).
    { rewrite Eb in H4b. apply Forall_elt in H4b. exact H4b. }
    subst lk. rewrite Forall_app in Hl1. destruct Hl1 as [Hs1 Hs2].
    rewrite (existsb_false_forall _ _ stuck Hs1).
    assert (Hex : existsb (fun e => has_id id (strm e)) live = true).
    { rewrite Eb, existsb_app. cbn [existsb strm fst snd]. rewrite Hid. now rewrite orb_true_r. }
    rewrite Hex.
    assert (Hne : stuck ++ b1 <> []).
    { intros C. apply app_eq_nil in C. destruct C as [-> ->]. cbn [app] in Eb.
      rewrite (H5 eq_refl) in Eb. discriminate. }
    destruct (exists_last Hne) as (l0 & [[p sp] lp] & El0).
    rewrite El0 in *. rewrite last_addr_snoc in G5. cbn [addr fst] in G5. rewrite G5.
    apply lseg_app in G1. destruct G1 as (m & J1 & J2). cbn [lseg] in J2.
    destruct J2 as (-> & np & J3 & J4 & J5 & J6).
    assert (D : ~ In p (addrs l0) /\ p <> a /\ ~ In p (addrs l2) /\ ~ In a (addrs l2) /\ ~ In a (addrs l0)).
    { clear -HN. unfold addrs in *. rewrite map_app in HN. cbn [map addr fst] in HN. rewrite <- app_assoc in HN. cbn [app] in HN.
      pose proof (NoDup_remove_2 _ _ _ HN) as D1. apply NoDup_remove_1 in HN.
      pose proof (NoDup_remove_2 _ _ _ HN) as D2. rewrite in_app_iff in *. cbn [In] in *.
      repeat split; intro; subst; tauto. }
    destruct D as (D1 & D2 & D3 & D4 & D5).
    assert (Hflags : flags stuck (b1 ++ l2)).
    { split; [exact H4a|]. rewrite Eb in H4b. apply Forall_app in H4b. destruct H4b as [F1 F2].
      inversion F2; subst. apply Forall_app. auto. }
    assert (HND : NoDup (addrs (stuck ++ b1 ++ l2))).
    { rewrite app_assoc, El0, addrs_app. apply NoDup_remove_1 in HN. exact HN. }
    assert (Hcnt : (List.length (stuck ++ b1 ++ l2) <= List.length (lk_heap l))%nat).
    { rewrite Eb in H3. rewrite !app_length in *. cbn [List.length] in H3. unfold entry in *. lia. }
    assert (Hstrm : delete_first id (map strm live) = map strm (b1 ++ l2)).
    { rewrite Eb, map_app. cbn [map strm fst snd]. rewrite delete_first_split by (auto using Forall_map_strm).
      now rewrite map_app. }
    rewrite Hstrm.
    assert (Hnil : stuck = [] -> b1 ++ l2 = []).
    { intros C. specialize (H5 C). rewrite H5 in Eb. destruct b1; discriminate. }
    exists stuck, (b1 ++ l2). cbn [lk_heap lk_head lk_count t_stuck t_live t_count].
    split.
    { rewrite app_assoc, El0. destruct l2 as [|[[b sb] lb] l3].
      - cbn [lseg] in G6. rewrite G6, app_nil_r. apply lseg_app. exists (Some p). split; [now apply lseg_upd|].
        cbn [lseg]. split; [reflexivity|]. exists (set_next None np). split; [now apply nth_upd_same|].
        cbn [set_next n_stream n_prev n_next]. auto.
      - cbn [lseg] in G6. destruct G6 as (G6 & nb & K1 & K2 & K3 & K4). rewrite G6.
        assert (Hlb : lb = true).
        { destruct Hflags as [_ F]. apply Forall_app in F. destruct F as [_ F]. now inversion F. }
        subst lb. cbn [addrs map addr fst In] in D3, D4.
        assert (Hb : ~ In b (addrs l0) /\ ~ In b (addrs l3)).
        { clear -HN. unfold addrs in *. rewrite map_app in HN. cbn [map addr fst] in HN. rewrite <- app_assoc in HN. cbn [app] in HN.
          apply NoDup_remove_1 in HN. apply NoDup_remove_1 in HN.
          pose proof (NoDup_remove_2 _ _ _ HN) as D2. rewrite in_app_iff in D2. tauto. }
        destruct Hb as (B1 & B3).
        rewrite <- app_assoc. apply lseg_app. exists (Some p). split; [apply lseg_upd; [apply lseg_upd|]; assumption|].
        cbn [app lseg]. split; [reflexivity|]. exists (set_next (Some b) np).
        rewrite nth_upd_other by intuition congruence. split; [now apply nth_upd_same|].
        cbn [set_next n_stream n_prev n_next]. split; [exact J4|]. split; [exact J5|]. split; [reflexivity|].
        exists (set_prev (Some p) nb). split.
        { apply nth_upd_same. rewrite nth_upd_other by intuition congruence. exact K1. }
        cbn [set_prev n_stream n_prev n_next]. split; [exact K2|]. split; [reflexivity|].
        apply lseg_upd; [|exact B3]. apply lseg_upd; [exact K4|tauto]. }
    split; [exact HND|]. split.
    { destruct (n_next n); now rewrite ?upd_length. }
    split; [exact Hflags|]. split; [exact Hnil|]. rewrite H8. auto.
Qed.

Theorem lookup_refines_table : forall calls, refines (lookup_run calls) (table_run calls).
Proof.
  induction calls as [|c calls IH] using rev_ind; [exact refines_init|].
  unfold lookup_run, table_run. rewrite !fold_left_app. cbn [fold_left].
  destruct c; [now apply refines_add|now apply refines_remove].
Qed.
Lemma refines_size : forall l t, refines l t -> lookup_size l = t_count t.
Proof. intros l t (stuck & live & H). unfold lookup_size. apply H. Qed.
