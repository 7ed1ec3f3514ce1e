(** C68: reading custom sections. *)
From Verif Require Import Base BaseFacts FramesModel MeshModel MeshProps SectionModel.
Local Ltac Zify.zify_post_hook ::= Z.div_mod_to_equations.

(** ** Specification *)
Inductive section := Custom (name content : bytes) | Other (id : N) (content : bytes).
(** Unsigned LEB128: seven bits per byte, the lowest first; every byte but the
    last has its top bit set.  An encoding need not be the shortest. *)
Definition leb_value (b : bytes) : N := fold_right (fun x a => x mod 128 + 128 * a) 0 b.
Definition is_leb (v : N) (b : bytes) : Prop :=
  exists lo x, b = lo ++ [x] /\ Forall (fun y => 128 <= y < 256) lo /\ x < 128 /\ (List.length b <= 5)%nat /\ leb_value b = v /\ v < 2 ^ 32.
Section Spec.
Context (valid : bytes -> bool).
Inductive encodes : list section -> bytes -> Prop :=
| enc_nil : encodes [] []
| enc_custom name content sz nm rest l : is_leb (len name) nm -> is_leb (len nm + len name + len content) sz -> valid name = true -> encodes l rest ->
    encodes (Custom name content :: l) (0 :: sz ++ nm ++ name ++ content ++ rest)
| enc_other id content sz rest l : id <> 0 -> is_leb (len content) sz -> encodes l rest -> encodes (Other id content :: l) (id :: sz ++ content ++ rest).
Definition is_module (l : list section) (data : bytes) : Prop := exists b, data = [0; 97; 115; 109; 1; 0; 0; 0] ++ b /\ encodes l b.
End Spec.
(** The content of the last section of a name. *)
Fixpoint last_content (name : bytes) (l : list section) : option bytes :=
  match l with
  | [] => None
  | s :: l' =>
      match last_content name l' with
      | Some c => Some c
      | None => match s with Custom n c => if list_eq_dec N.eq_dec n name then Some c else None | Other _ _ => None end
      end
  end.
(** A wanted section without content at the very end. *)
Definition ends_empty (names : list bytes) (l : list section) : Prop := exists l0 name, l = l0 ++ [Custom name []] /\ In name names.

(** ** LEB128 *)
Lemma leb_go_ok : forall lo x rest left shift ret n, Forall (fun y => 128 <= y < 256) lo -> x < 128 -> (List.length lo < left)%nat ->
  (List.length lo = pred left -> x <= 15) ->
  leb_go left shift ret n (lo ++ x :: rest) = Ok (ret + shift * leb_value (lo ++ [x]), n + len (lo ++ [x]), rest).
Proof.
  induction lo as [|y lo IH]; intros x rest left shift ret n Hl Hx Hn H5; (destruct left as [|left]; [cbn in Hn; lia|]); cbn [app leb_go].
  - destruct (N.ltb_spec x 128); [|lia]. replace (match left with O => 15 <? x | _ => false end) with false.
    + cbn [leb_value fold_right app]. rewrite N.mod_small by lia. unfold len. cbn [List.length]. do 3 f_equal; lia.
    + destruct left; [|reflexivity]. symmetry. apply N.ltb_ge. apply H5. reflexivity.
  - inversion Hl as [|? ? Hy Hl']; subst. destruct (N.ltb_spec y 128); [lia|]. rewrite IH; auto.
    + cbn [leb_value fold_right app]. fold (leb_value (lo ++ [x])). replace (y mod 128) with (y - 128) by lia. unfold len. cbn [List.length]. do 3 f_equal; lia.
    + cbn in Hn. lia.
    + intros E. apply H5. cbn [List.length pred]. cbn in Hn. lia.
Qed.
Lemma leb_value_high : forall lo x, leb_value (lo ++ [x]) >= 128 ^ N.of_nat (List.length lo) * (x mod 128).
Proof.
  induction lo as [|y lo IH]; intros x; cbn [app leb_value fold_right List.length].
  - cbn [N.of_nat]. rewrite N.pow_0_r. lia.
  - fold (leb_value (lo ++ [x])). specialize (IH x). rewrite Nat2N.inj_succ, N.pow_succ_r'. nia.
Qed.
Lemma leb128_ok : forall v b rest, is_leb v b -> leb128 (b ++ rest) = Ok (v, len b, rest).
Proof.
  intros v b rest (lo & x & -> & Hl & Hx & Hn & Hv & H32). rewrite <- app_assoc. unfold leb128. cbn [app]. rewrite app_length in Hn. cbn [List.length] in Hn.
  rewrite leb_go_ok; auto; [rewrite Hv; do 3 f_equal; lia|lia|].
  intros E. cbn [pred] in E. pose proof (leb_value_high lo x) as G. rewrite E in G. change (128 ^ N.of_nat 4) with 268435456 in G. change (2 ^ 32) with 4294967296 in H32. rewrite N.mod_small in G by lia. lia.
Qed.
Lemma leb_go_inv : forall left b shift ret n v k rest, Forall (fun y => y < 256) b -> leb_go left shift ret n b = Ok (v, k, rest) ->
  exists lo x, b = lo ++ x :: rest /\ Forall (fun y => 128 <= y < 256) lo /\ x < 128 /\ (List.length lo < left)%nat /\ (List.length lo = pred left -> x <= 15) /\
    v = ret + shift * leb_value (lo ++ [x]) /\ k = n + len (lo ++ [x]).
Proof.
  induction left as [|left IH]; intros b shift ret n v k rest Hb H; [discriminate H|]. destruct b as [|y b]; [discriminate H|]. cbn [leb_go] in H. inversion Hb as [|? ? Hy Hb']; subst.
  destruct (N.ltb_spec y 128) as [Hs|Hs].
  - destruct (match left with O => 15 <? y | _ => false end) eqn:E5; [discriminate H|]. injection H as <- <- <-. exists [], y. cbn [app List.length leb_value fold_right].
    rewrite N.mod_small by lia. repeat split; auto; try lia. intros E. cbn [pred] in E. subst left. now apply N.ltb_ge in E5.
  - destruct (IH _ _ _ _ _ _ _ Hb' H) as (lo & x & -> & H1 & H2 & H3 & H4 & H5 & H6). exists (y :: lo), x. cbn [app List.length leb_value fold_right]. fold (leb_value (lo ++ [x])).
    replace (y mod 128) with (y - 128) by lia. repeat split; auto; try lia.
    unfold len in *. cbn [List.length]. lia.
Qed.
Lemma leb_value_bound : forall b, Forall (fun y => y < 256) b -> leb_value b < 128 ^ N.of_nat (List.length b).
Proof.
  induction 1 as [|y b Hy Hb IH]; cbn [leb_value fold_right List.length]; [cbn; lia|]. fold (leb_value b). rewrite Nat2N.inj_succ, N.pow_succ_r'. lia.
Qed.
Lemma leb_value_app : forall lo x, leb_value (lo ++ [x]) = leb_value lo + 128 ^ N.of_nat (List.length lo) * (x mod 128).
Proof.
  induction lo as [|y lo IH]; intros x; cbn [app leb_value fold_right List.length]; [cbn [N.of_nat]; rewrite N.pow_0_r; lia|].
  fold (leb_value (lo ++ [x])). fold (leb_value lo). rewrite IH, Nat2N.inj_succ, N.pow_succ_r'. lia.
Qed.
Lemma leb128_inv : forall b v k rest, Forall (fun y => y < 256) b -> leb128 b = Ok (v, k, rest) -> exists e, b = e ++ rest /\ is_leb v e /\ k = len e.
Proof.
  intros b v k rest Hb H. destruct (leb_go_inv _ _ _ _ _ _ _ _ Hb H) as (lo & x & -> & H1 & H2 & H3 & H4 & H5 & H6). exists (lo ++ [x]). rewrite <- app_assoc. split; [reflexivity|]. split; [|lia].
  exists lo, x. split; [reflexivity|]. split; [exact H1|]. split; [exact H2|]. rewrite app_length. cbn [List.length]. split; [lia|]. split; [lia|]. rewrite H5, leb_value_app, N.mod_small by lia.
  assert (Hlo : Forall (fun y => y < 256) lo) by (eapply Forall_impl; [|exact H1]; cbv beta; lia). pose proof (leb_value_bound lo Hlo) as G. cbn [pred] in H4. change (2 ^ 32) with 4294967296.
  destruct (Nat.eq_dec (List.length lo) 4) as [E|E].
  - specialize (H4 E). rewrite E in *. change (128 ^ N.of_nat 4) with 268435456 in *. lia.
  - assert (L : 128 ^ N.of_nat (List.length lo) <= 128 ^ 3) by (apply N.pow_le_mono_r; lia). change (128 ^ 3) with 2097152 in L. nia.
Qed.

(** ** Reading *)
Lemma read_full_ok : forall n a b, len a = n -> read_full n (a ++ b) = Ok (a, b).
Proof.
  intros n a b <-. unfold read_full. rewrite len_app. destruct (N.ltb_spec (len a + len b) (len a)); [lia|]. rewrite takeN_firstn, dropN_skipn. unfold len. rewrite Nat2N.id.
  rewrite firstn_app, skipn_app, Nat.sub_diag, firstn_all, skipn_all. cbn. now rewrite app_nil_r.
Qed.
Lemma read_full_inv : forall n r a b, read_full n r = Ok (a, b) -> r = a ++ b /\ len a = n.
Proof.
  intros n r a b H. unfold read_full in H. destruct (N.ltb_spec (len r) n); [discriminate H|]. injection H as <- <-. rewrite takeN_firstn, dropN_skipn, firstn_skipn. split; [reflexivity|].
  unfold len in *. rewrite firstn_length. lia.
Qed.
Lemma read_some_ok : forall a b, a ++ b <> [] -> read_some (len a) (a ++ b) = Ok (a, b).
Proof.
  intros a b H. unfold read_some. destruct (a ++ b) eqn:E; [now destruct H|]. rewrite <- E. clear E H. rewrite len_app, takeN_firstn, dropN_skipn. unfold zeros. replace (len a - (len a + len b)) with 0 by lia. unfold len. rewrite Nat2N.id.
  rewrite firstn_app, skipn_app, Nat.sub_diag, firstn_all, skipn_all. cbn. now rewrite !app_nil_r.
Qed.
(** Either the content was complete, or less was read than asked for. *)
Lemma read_some_inv : forall n r c r', read_some n r = Ok (c, r') -> r <> [] /\ (r = c ++ r' /\ len c = n \/ r' = [] /\ len r < n).
Proof.
  intros n r c r' H. unfold read_some in H. destruct r as [|x r0] eqn:Er; [discriminate H|]. rewrite <- Er in *. split; [rewrite Er; discriminate|].
  assert (E := f_equal (fun z => match z with Ok p => p | _ => (c, r') end) H). cbv beta iota in E. apply pair_equal_spec in E. destruct E as [E1 E2]. rewrite dropN_skipn in E2. rewrite takeN_firstn in E1.
  destruct (N.lt_ge_cases (len r) n) as [Hl|Hl].
  - right. split; [|exact Hl]. rewrite <- E2. apply skipn_all2. unfold len in Hl. lia.
  - left. unfold zeros in E1. replace (n - len r) with 0 in E1 by lia. cbn [N.to_nat repeat] in E1. rewrite app_nil_r in E1. subst c r'. rewrite firstn_skipn. split; [reflexivity|]. unfold len in *. rewrite firstn_length. lia.
Qed.
Lemma is_leb_len : forall v b, is_leb v b -> 0 < len b <= 5 /\ v < 2 ^ 32.
Proof. intros v b (lo & x & -> & _ & _ & H & _ & H'). rewrite len_app. rewrite app_length in H. unfold len in *. cbn [List.length] in *. split; [lia|exact H']. Qed.
Section Reading.
Context (valid : bytes -> bool).
Lemma decode_utf8_ok : forall name nm rest, is_leb (len name) nm -> valid name = true -> len nm + len name < 2 ^ 32 ->
  decode_utf8 valid (nm ++ name ++ rest) = Ok (name, len nm + len name, rest).
Proof.
  intros name nm rest Hn Hv H. unfold decode_utf8. rewrite (leb128_ok _ _ _ Hn), (read_full_ok _ _ _ eq_refl), Hv. change (2 ^ 32) with 4294967296 in H. unfold u32. rewrite N.mod_small by lia. do 3 f_equal. lia.
Qed.
Lemma decode_utf8_inv : forall r name k rest, Forall (fun y => y < 256) r -> len r < 2 ^ 32 -> decode_utf8 valid r = Ok (name, k, rest) ->
  exists nm, r = nm ++ name ++ rest /\ is_leb (len name) nm /\ valid name = true /\ k = len nm + len name.
Proof.
  intros r name k rest Hr Hl H. unfold decode_utf8 in H. destruct (leb128 r) as [[[size n] r1]| |] eqn:E1; [|discriminate H..]. destruct (read_full size r1) as [[buf r2]| |] eqn:E2; [|discriminate H..].
  destruct (valid buf) eqn:Ev; [|discriminate H]. injection H as <- <- <-. destruct (leb128_inv _ _ _ _ Hr E1) as (e & -> & He & ->). apply read_full_inv in E2. destruct E2 as [-> <-].
  exists e. split; [reflexivity|]. split; [exact He|]. split; [exact Ev|]. rewrite !len_app in Hl. change (2 ^ 32) with 4294967296 in Hl. unfold u32. rewrite N.mod_small by lia. lia.
Qed.
Definition put (wanted : bytes -> bool) (s : section) (m : list (bytes * bytes)) : list (bytes * bytes) :=
  match s with Custom n c => if wanted n then assign n c m else m | Other _ _ => m end.
Lemma read_section_custom : forall wanted name content sz nm rest m, is_leb (len name) nm -> is_leb (len nm + len name + len content) sz -> valid name = true ->
  (wanted name = true -> content ++ rest <> []) ->
  read_section valid wanted 0 (sz ++ nm ++ name ++ content ++ rest) m = Ok (put wanted (Custom name content) m, rest).
Proof.
  intros wanted name content sz nm rest m Hn Hs Hv Hw. unfold read_section. rewrite (leb128_ok _ _ _ Hs). cbn [bind N.eqb]. destruct (is_leb_len _ _ Hs) as [_ H32].
  rewrite (decode_utf8_ok name nm (content ++ rest) Hn Hv) by lia. cbn [bind]. destruct (N.ltb_spec (len nm + len name + len content) (len nm + len name)); [lia|].
  replace (len nm + len name + len content - (len nm + len name)) with (len content) by lia. cbn [put]. destruct (wanted name).
  - rewrite read_some_ok by (apply Hw; reflexivity). cbn [bind fst snd]. destruct (N.eqb_spec (len nm + len name + len content) (len (nm ++ name ++ content ++ rest) - len rest)) as [E|E]; [reflexivity|]. rewrite !len_app in E. lia.
  - rewrite (read_full_ok _ _ _ eq_refl). cbn [bind fst snd]. destruct (N.eqb_spec (len nm + len name + len content) (len (nm ++ name ++ content ++ rest) - len rest)) as [E|E]; [reflexivity|]. rewrite !len_app in E. lia.
Qed.
Lemma read_section_other : forall wanted id content sz rest m, id <> 0 -> is_leb (len content) sz ->
  read_section valid wanted id (sz ++ content ++ rest) m = Ok (m, rest).
Proof.
  intros wanted id content sz rest m Hi Hs. unfold read_section. rewrite (leb128_ok _ _ _ Hs). cbn [bind]. apply N.eqb_neq in Hi. rewrite Hi, (read_full_ok _ _ _ eq_refl). cbn [bind fst snd].
  destruct (N.eqb_spec (len content) (len (content ++ rest) - len rest)) as [E|E]; [reflexivity|]. rewrite !len_app in E. lia.
Qed.
Lemma encodes_nil : forall l, encodes valid l [] -> l = [].
Proof. intros l H. inversion H; reflexivity. Qed.
Lemma read_sections_ok : forall l b, encodes valid l b -> forall wanted fuel m, (List.length b <= fuel)%nat ->
  (forall l0 name, l = l0 ++ [Custom name []] -> wanted name = false) ->
  read_sections valid fuel wanted b m = Ok (fold_left (fun m s => put wanted s m) l m).
Proof.
  induction 1 as [|name content sz nm rest l Hn Hs Hv He IH|id content sz rest l Hi Hs He IH]; intros wanted fuel m Hf Hw.
  - destruct fuel; reflexivity.
  - destruct fuel as [|fuel]; [cbn in Hf; lia|]. cbn [read_sections fold_left]. rewrite read_section_custom; auto.
    + cbn [bind fst snd]. apply IH.
      * cbn [List.length] in Hf. rewrite !app_length in Hf. lia.
      * intros l0 n0 ->. apply (Hw (Custom name content :: l0) n0). reflexivity.
    + intros Wn E. apply app_eq_nil in E. destruct E as [-> ->]. apply encodes_nil in He. subst l. rewrite (Hw [] name eq_refl) in Wn. discriminate Wn.
  - destruct fuel as [|fuel]; [cbn in Hf; lia|]. cbn [read_sections fold_left]. rewrite read_section_other; auto. cbn [bind fst snd]. apply IH.
    + cbn [List.length] in Hf. rewrite !app_length in Hf. lia.
    + intros l0 n0 ->. apply (Hw (Other id content :: l0) n0). reflexivity.
Qed.
Lemma find_put : forall wanted l m name, find name (fold_left (fun m s => put wanted s m) l m) =
  if wanted name then match last_content name l with Some c => Some c | None => find name m end else find name m.
Proof.
  intros wanted l. induction l as [|s l IH]; intros m name; cbn [fold_left last_content]; [destruct (wanted name); reflexivity|]. rewrite IH. destruct s as [n c|id c]; cbn [put].
  - destruct (wanted name) eqn:Ew.
    + destruct (last_content name l); [reflexivity|]. destruct (list_eq_dec N.eq_dec n name) as [->|Hn].
      * rewrite Ew, find_assign. destruct (list_eq_dec N.eq_dec name name); [reflexivity|congruence].
      * destruct (wanted n); [|reflexivity]. rewrite find_assign. destruct (list_eq_dec N.eq_dec name n); [congruence|reflexivity].
    + destruct (wanted n) eqn:En; [|reflexivity]. rewrite find_assign. destruct (list_eq_dec N.eq_dec name n); [congruence|reflexivity].
  - destruct (wanted name); [|reflexivity]. destruct (last_content name l); reflexivity.
Qed.
(** Conversely, what is read successfully is a sequence of sections. *)
Lemma Forall_app_r : forall (a b : bytes), Forall (fun y => y < 256) (a ++ b) -> Forall (fun y => y < 256) b.
Proof. intros a b H. apply Forall_app in H. apply H. Qed.
Lemma read_section_inv : forall wanted id r m m' r', Forall (fun y => y < 256) r -> len r < 2 ^ 32 -> read_section valid wanted id r m = Ok (m', r') ->
  exists s, (forall l, encodes valid l r' -> encodes valid (s :: l) (id :: r)) /\ m' = put wanted s m /\ (forall name, s = Custom name [] -> wanted name = true -> r' <> []) /\ (exists p, r = p ++ r').
Proof.
  intros wanted id r m m' r' Hr Hl H. unfold read_section in H. destruct (leb128 r) as [[[size k] r0]| |] eqn:E1; cbn [bind] in H; [|discriminate H..].
  destruct (leb128_inv _ _ _ _ Hr E1) as (sz & -> & Hs & _). assert (Hr0 := Forall_app_r _ _ Hr). rewrite len_app in Hl. destruct (N.eqb_spec id 0) as [->|Hid].
  - destruct (decode_utf8 valid r0) as [[[name ns] r1]| |] eqn:E2; cbn [bind] in H; [|discriminate H..]. destruct (decode_utf8_inv _ _ _ _ Hr0 ltac:(lia) E2) as (nm & -> & Hn & Hv & ->).
    destruct (N.ltb_spec size (len nm + len name)); [discriminate H|]. destruct (wanted name) eqn:Ew.
    + destruct (read_some (size - (len nm + len name)) r1) as [[c r2]| |] eqn:E3; cbn [bind fst snd] in H; [|discriminate H..].
      destruct (N.eqb_spec size (len (nm ++ name ++ r1) - len r2)) as [E4|E4]; [|discriminate H]. injection H as <- <-. rewrite !len_app in E4. destruct (read_some_inv _ _ _ _ E3) as [Hne [[-> Hc]|[-> Hc]]].
      * exists (Custom name c). split; [|split; [|split]].
        -- intros l He. constructor; auto. replace (len nm + len name + len c) with size by lia. exact Hs.
        -- cbn [put]. now rewrite Ew.
        -- intros name' E _. injection E as -> ->. exact Hne.
        -- exists (sz ++ nm ++ name ++ c). now rewrite <- !app_assoc.
      * exfalso. unfold len at 4 in E4. cbn [List.length N.of_nat] in E4. lia.
    + destruct (read_full (size - (len nm + len name)) r1) as [[c r2]| |] eqn:E3; cbn [bind fst snd] in H; [|discriminate H..].
      destruct (N.eqb_spec size (len (nm ++ name ++ r1) - len r2)) as [E4|E4]; [|discriminate H]. injection H as <- <-. destruct (read_full_inv _ _ _ _ E3) as [-> Hc].
      exists (Custom name c). split; [|split; [|split]].
      * intros l He. constructor; auto. replace (len nm + len name + len c) with size by lia. exact Hs.
      * cbn [put]. now rewrite Ew.
      * intros name' E W. injection E as -> ->. congruence.
      * exists (sz ++ nm ++ name ++ c). now rewrite <- !app_assoc.
  - destruct (read_full size r0) as [[c r2]| |] eqn:E3; cbn [bind fst snd] in H; [|discriminate H..]. destruct (N.eqb_spec size (len r0 - len r2)) as [E4|E4]; [|discriminate H]. injection H as <- <-. destruct (read_full_inv _ _ _ _ E3) as [-> Hc].
    exists (Other id c). split; [|split; [|split]]; auto.
    + intros l He. constructor; auto. rewrite Hc. exact Hs.
    + intros name E _. discriminate E.
    + exists (sz ++ c). now rewrite <- app_assoc.
Qed.
Lemma read_sections_inv : forall fuel wanted b m m', Forall (fun y => y < 256) b -> len b < 2 ^ 32 -> read_sections valid fuel wanted b m = Ok m' ->
  exists l, encodes valid l b /\ forall l0 name, l = l0 ++ [Custom name []] -> wanted name = false.
Proof.
  induction fuel as [|fuel IH]; intros wanted b m m' Hb Hl H; (destruct b as [|id b]; [exists []; split; [constructor|intros [|] ? E; discriminate E]|cbn [read_sections] in H]); [discriminate H|].
  destruct (read_section valid wanted id b m) as [[m1 r1]| |] eqn:E; cbn [bind fst snd] in H; [|discriminate H..]. inversion Hb as [|? ? _ Hb']; subst.
  assert (Hl' : len b < 2 ^ 32) by (change (id :: b) with ([id] ++ b) in Hl; rewrite len_app in Hl; lia).
  destruct (read_section_inv _ _ _ _ _ _ Hb' Hl' E) as (s & He & -> & Hs & p & ->). rewrite len_app in Hl'.
  destruct (IH wanted r1 _ m' (Forall_app_r _ _ Hb') ltac:(lia) H) as (l & Hl1 & Hl2). exists (s :: l). split; [auto|]. intros l0 name E0. destruct l0 as [|s0 l0].
  - injection E0 as -> ->. destruct (wanted name) eqn:Ew; [|reflexivity]. exfalso. apply (Hs name eq_refl Ew). inversion Hl1. reflexivity.
  - injection E0 as -> ->. apply (Hl2 l0 name). reflexivity.
Qed.
End Reading.

(** ** C68 *)
Definition among (names : list bytes) (n : bytes) : bool := existsb (fun x => if list_eq_dec N.eq_dec n x then true else false) names.
Lemma among_spec : forall names n, among names n = true <-> In n names.
Proof.
  intros names n. unfold among. rewrite existsb_exists. split.
  - intros (x & Hi & H). destruct (list_eq_dec N.eq_dec n x); [now subst|discriminate H].
  - intros H. exists n. split; [exact H|]. destruct (list_eq_dec N.eq_dec n n); [reflexivity|congruence].
Qed.
(** Reading a module gives the content of the last section of each requested
    name and nothing else. *)
Theorem C68_requested_sections : forall valid l data names, is_module valid l data -> ~ ends_empty names l ->
  exists m, read_module valid data names = Ok m /\ forall name, find name m = if in_dec (list_eq_dec N.eq_dec) name names then last_content name l else None.
Proof.
  intros valid l data names (b & -> & He) Hn. eexists. split.
  - unfold read_module. change ([0; 97; 115; 109; 1; 0; 0; 0] ++ b) with (wasm_magic ++ wasm_version ++ b). rewrite (read_full_ok 4 wasm_magic) by reflexivity.
    destruct (list_eq_dec N.eq_dec wasm_magic wasm_magic); [|congruence]. rewrite (read_full_ok 4 wasm_version) by reflexivity. destruct (list_eq_dec N.eq_dec wasm_version wasm_version); [|congruence].
    fold (among names). change (fun n => existsb (fun x => if list_eq_dec N.eq_dec n x then true else false) names) with (among names).
    apply (read_sections_ok valid l b He); [lia|]. intros l0 name E. apply not_true_iff_false. rewrite among_spec. intros Hi. apply Hn. exists l0, name. auto.
  - intros name. rewrite find_put. cbn [find]. destruct (in_dec (list_eq_dec N.eq_dec) name names) as [Hi|Hi].
    + rewrite (proj2 (among_spec names name) Hi). destruct (last_content name l); reflexivity.
    + destruct (among names name) eqn:E; [apply among_spec in E; contradiction|reflexivity].
Qed.
(** Whatever is read successfully is a module; its size must not reach 4 GiB. *)
Theorem C68_only_modules_accepted : forall valid data names m, Forall (fun y => y < 256) data -> len data < 2 ^ 32 -> read_module valid data names = Ok m ->
  exists l, is_module valid l data /\ ~ ends_empty names l.
Proof.
  intros valid data names m Hd Hl H. unfold read_module in H. destruct (read_full 4 data) as [[a r1]| |] eqn:E1; [|discriminate H..]. destruct (list_eq_dec N.eq_dec a wasm_magic) as [->|]; [|discriminate H].
  destruct (read_full 4 r1) as [[b r2]| |] eqn:E2; [|discriminate H..]. destruct (list_eq_dec N.eq_dec b wasm_version) as [->|]; [|discriminate H]. apply read_full_inv in E1. destruct E1 as [-> _]. apply read_full_inv in E2. destruct E2 as [-> _].
  rewrite !len_app in Hl. apply Forall_app_r, Forall_app_r in Hd. change (fun n => existsb (fun x => if list_eq_dec N.eq_dec n x then true else false) names) with (among names) in H.
  destruct (read_sections_inv valid _ _ _ _ _ Hd ltac:(lia) H) as (l & He & Hw). exists l. split; [exists r2; auto|]. intros (l0 & name & E & Hi). specialize (Hw _ _ E). apply among_spec in Hi. congruence.
Qed.
(** A requested section without content at the very end makes the read fail. *)
Theorem C68_empty_section_at_end_refuted : forall valid l data names, is_module valid l data -> ends_empty names l -> exists e, read_module valid data names = Err e.
Proof.
  intros valid l data names (b & -> & He) Hn. unfold read_module. change ([0; 97; 115; 109; 1; 0; 0; 0] ++ b) with (wasm_magic ++ wasm_version ++ b). rewrite (read_full_ok 4 wasm_magic) by reflexivity.
  destruct (list_eq_dec N.eq_dec wasm_magic wasm_magic); [|congruence]. rewrite (read_full_ok 4 wasm_version) by reflexivity. destruct (list_eq_dec N.eq_dec wasm_version wasm_version); [|congruence].
  change (fun n => existsb (fun x => if list_eq_dec N.eq_dec n x then true else false) names) with (among names).
  assert (Hf : (List.length b <= List.length b)%nat) by lia. revert Hf. generalize (List.length b) at 2 3. generalize (@nil (bytes * bytes)). destruct Hn as (l0 & name0 & El & Hi). apply among_spec in Hi. revert l0 El.
  induction He as [|name content sz nm rest l Hn Hs Hv He IH|id content sz rest l Hid Hs He IH]; intros l0 El m fuel Hf.
  - destruct l0; discriminate El.
  - destruct fuel as [|fuel]; [cbn in Hf; lia|]. cbn [read_sections]. destruct l0 as [|s0 l0].
    + injection El as -> -> ->. inversion He; subst. unfold read_section. rewrite (leb128_ok _ _ _ Hs). cbn [bind N.eqb]. destruct (is_leb_len _ _ Hs) as [_ H32].
      rewrite (decode_utf8_ok valid name0 nm ([] ++ []) Hn Hv) by (unfold len at 3 in H32; cbn [List.length N.of_nat] in H32; lia). cbn [bind]. destruct (N.ltb_spec (len nm + len name0 + len (@nil N)) (len nm + len name0)); [lia|].
      rewrite Hi. cbn [app read_some bind]. eexists. reflexivity.
    + injection El as <- ->. rewrite read_section_custom; auto.
      * cbn [bind fst snd]. apply (IH l0 eq_refl). cbn [List.length] in Hf. rewrite !app_length in Hf. lia.
      * intros _ E. apply app_eq_nil in E. destruct E as [_ ->]. apply encodes_nil in He. destruct l0; discriminate He.
  - destruct fuel as [|fuel]; [cbn in Hf; lia|]. cbn [read_sections]. destruct l0 as [|s0 l0]; [discriminate El|]. injection El as <- ->. rewrite read_section_other; auto. cbn [bind fst snd]. apply (IH l0 eq_refl). cbn [List.length] in Hf. rewrite !app_length in Hf. lia.
Qed.

(** Two sections of the name "ab", a code section, a section nobody asked for,
    one size written in two bytes. *)
Definition C68_sections : list section := [Custom [97; 98] [1]; Other 10 [7; 7; 7]; Custom [99] [5]; Custom [97; 98] [2; 3]; Other 11 []].
Definition C68_data : bytes :=
  [0; 97; 115; 109; 1; 0; 0; 0] ++ [0; 4; 2; 97; 98; 1] ++ [10; 131; 0; 7; 7; 7] ++ [0; 3; 1; 99; 5] ++ [0; 5; 2; 97; 98; 2; 3] ++ [11; 0].
Example C68_example :
  is_module (fun _ => true) C68_sections C68_data /\ ~ ends_empty [[97; 98]; [100]] C68_sections /\
  read_module (fun _ => true) C68_data [[97; 98]; [100]] = Ok [([97; 98], [2; 3])] /\
  ends_empty [[97; 98]] [Custom [97; 98] []] /\ is_module (fun _ => true) [Custom [97; 98] []] ([0; 97; 115; 109; 1; 0; 0; 0] ++ [0; 3; 2; 97; 98]).
Proof.
  assert (L : forall n, n < 128 -> is_leb n [n]).
  { intros n Hn. exists [], n. repeat split; auto; cbn; rewrite ?N.mod_small by lia; lia. }
  split; [|split; [|split; [reflexivity|split]]].
  - eexists. split; [reflexivity|].
    apply (enc_custom _ [97; 98] [1] [4] [2]); try reflexivity; try (apply L; reflexivity).
    apply (enc_other _ 10 [7; 7; 7] [131; 0]); [discriminate| |].
    { exists [131], 0. repeat split; auto; try (repeat constructor; lia); try (cbn; lia); reflexivity. }
    apply (enc_custom _ [99] [5] [3] [1]); try reflexivity; try (apply L; reflexivity).
    apply (enc_custom _ [97; 98] [2; 3] [5] [2]); try reflexivity; try (apply L; reflexivity).
    apply (enc_other _ 11 [] [0]); [discriminate|apply L; reflexivity|constructor].
  - intros (l0 & name & E & _). apply (f_equal (@rev section)) in E. rewrite rev_app_distr in E. discriminate E.
  - exists [], [97; 98]. split; [reflexivity|now left].
  - eexists. split; [reflexivity|]. apply (enc_custom _ [97; 98] [] [3] [2] [] []); try reflexivity; try (apply L; reflexivity). constructor.
Qed.
Print Assumptions C68_requested_sections.
Print Assumptions C68_only_modules_accepted.
Print Assumptions C68_empty_section_at_end_refuted.
