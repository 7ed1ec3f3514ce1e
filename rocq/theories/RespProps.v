(** C81: [SliceResponse] on the host. *)
From Verif Require Import Base MonoModel MonoFacts FluxModel FluxFacts SliceProps.
From Coq Require Import Permutation.
Local Ltac Zify.zify_post_hook ::= Z.div_mod_to_equations.

Section Resp.
Context {V E O : Type}.
Notation event := (fevent V E O).
Notation act := (fact V E O rcode).
Notation item := (fitem V E O rcode).
Notation conf := (fconf V E O rcode (list V)).
(** Code that may ask for values, but not for a negative number, cancel, register
    notifications and record observations. *)
Inductive modest : act -> Prop :=
| o_cancel s : modest (FCall s KCancel)
| o_request s n : (0 <= n)%Z -> modest (FRequest s n)
| o_notify id fn : (forall t g, Forall modest (fn t g)) -> modest (FNotify id fn)
| o_obs o : modest (FObs o).
Record modest_handlers (h : fhandlers V E O rcode) : Prop := {
  oh_next : forall f, fh_next h = Some f -> forall t v, Forall modest (f t v);
  oh_complete : forall f, fh_complete h = Some f -> forall t, Forall modest (f t);
  oh_error : forall f, fh_error h = Some f -> forall t e, Forall modest (f t e);
  oh_request : forall f, fh_request h = Some f -> forall t s, Forall modest (f t s);
  oh_finally : forall f, fh_finally h = Some f -> forall t g, Forall modest (f t g) }.
Variable slice : list V.
Variable h : fhandlers V E O rcode.
Variable mh : modest_handlers h.

Definition pok (i : item) : Prop :=
  match i with
  | FAct a => modest a
  | FFire _ fn _ => forall t g, Forall modest (fn t g)
  | FReq _ _ => False
  | _ => True
  end.
Definition rpreq (l : list item) : list Z := flat_map (fun i => match i with FReq _ n => [n] | _ => [] end) l.
Definition good (sr : list Z) (b : nat) : Prop := b <> 0%nat <-> sr <> [] /\ (List.length slice <= total sr)%nat.
Inductive phase : list item -> list V -> list Z -> nat -> list V -> Prop :=
| ph_idle sr b : good sr b -> phase [] (firstn (total sr) slice) sr b (skipn (total sr) slice)
| ph_req sr b n : good sr b -> (0 <= n)%Z -> phase [FReq 0 n] (firstn (total sr) slice) sr b (skipn (total sr) slice)
| ph_start sr b n : good sr b -> (0 <= n)%Z -> phase [FAct (FDo (RespStart 0 n))] (firstn (total sr) slice) (sr ++ [n]) b (skipn (total sr) slice)
| ph_loop sr b n i num : good sr b -> (0 <= n)%Z -> num = Nat.min (List.length (skipn (total sr) slice)) (Z.to_nat n) -> (i <= num)%nat ->
    phase [FAct (FDo (RespLoop 0 i num))] (firstn (total sr + i) slice) (sr ++ [n]) b (skipn (total sr) slice)
| ph_next0 sr b n i num v : good sr b -> (0 <= n)%Z -> num = Nat.min (List.length (skipn (total sr) slice)) (Z.to_nat n) -> (i < num)%nat -> nth_error (skipn (total sr) slice) i = Some v ->
    phase [FAct (FCall 0 (KNext v)); FAct (FDo (RespLoop 0 (S i) num))] (firstn (total sr + i) slice) (sr ++ [n]) b (skipn (total sr) slice)
| ph_compl sr b : sr <> [] -> (List.length slice <= total sr)%nat -> phase [FAct (FCall 0 KComplete)] (firstn (total sr) slice) sr b (skipn (total sr) slice).
Definition thok (th : list item) : Prop := Forall pok th \/ exists n, (0 <= n)%Z /\ th = [FReq 0 n].
Definition shown (t : list event) : list (fcall V E) := filter (fun k => negb (is_cancel k)) (fcalls 0 t).
Definition the_sub (l : list (fsub V E O rcode)) : Prop := exists m, l = [m] /\ fs_h m = h /\ fs_request m = Some (fun _ n => [FDo (RespStart 0 n)]) /\ fs_cancel m = None.
Definition cbs_ok (l : list (N * (list event -> signal -> list act))) : Prop := Forall (fun cb => forall t g, Forall modest (snd cb t g)) l.
Record rinv (c : conf) : Prop := {
  r_pan : fc_panicked c = false;
  r_sub : the_sub (fc_subs c);
  r_cb : cbs_ok (fc_callbacks c);
  r_th : Forall thok (fc_threads c);
  r_stk : exists plain tail b, fc_stack c = plain ++ tail /\ Forall pok plain /\ phase tail (nexts (fc_trace c)) (srcreqs 0 (fc_trace c)) b (fc_store c) /\
     shown (fc_trace c) = map KNext (nexts (fc_trace c)) ++ repeat KComplete b /\
     Permutation (demands 0 (fc_trace c)) (srcreqs 0 (fc_trace c) ++ rpreq tail ++ flat_map rpreq (fc_threads c)) }.
Notation stepr := (fstep false resp_source resp_code).

Lemma shown_app a b : shown (a ++ b) = shown a ++ shown b.
Proof. unfold shown. now rewrite fcalls_app, filter_app. Qed.
Lemma modest_pok l : Forall modest l -> Forall pok (facts l).
Proof. induction 1; constructor; auto. Qed.
(** A step that leaves the slice alone. *)
Lemma rinv_plain c c' it plain tail b l ev new :
  rinv c -> phase tail (nexts (fc_trace c)) (srcreqs 0 (fc_trace c)) b (fc_store c) -> shown (fc_trace c) = map KNext (nexts (fc_trace c)) ++ repeat KComplete b ->
  Permutation (demands 0 (fc_trace c)) (srcreqs 0 (fc_trace c) ++ rpreq tail ++ flat_map rpreq (fc_threads c)) ->
  Forall pok (it :: plain) ->
  fc_panicked c' = false -> the_sub (fc_subs c') -> cbs_ok (fc_callbacks c') -> fc_threads c' = fc_threads c ++ new -> Forall thok new ->
  fc_trace c' = fc_trace c ++ ev -> fc_stack c' = l ++ plain ++ tail -> fc_store c' = fc_store c -> Forall pok l ->
  nexts ev = [] -> srcreqs 0 ev = [] -> shown ev = [] -> demands 0 ev = flat_map rpreq new -> rinv c'.
Proof.
  intros I Hph Hsh Hpm Hp H1 H2 H3 H4 H5 H6 H7 H8 H9 E1 E2 E3 E4. constructor; auto.
  - rewrite H4. apply Forall_app. split; [apply (r_th _ I)|exact H5].
  - exists (l ++ plain), tail, b. rewrite H7, H6, H8, nexts_app, srcreqs_app, shown_app, demands_app, E1, E2, E3, E4, !app_nil_r, H4. split; [now rewrite app_assoc|]. split; [apply Forall_app; split; [exact H9|now inversion Hp]|]. split; [exact Hph|]. split; [exact Hsh|].
    rewrite flat_map_app. rewrite !app_assoc. apply Permutation_app_tail. rewrite <- !app_assoc. exact Hpm.
Qed.
Ltac pl EV L NEW := eapply rinv_plain with (ev := EV) (l := L) (new := NEW); eauto; cbn [femit fc_panicked fc_subs fc_callbacks fc_threads fc_trace fc_stack fc_store]; rewrite ?app_nil_r, <- ?app_assoc; auto.
Ltac done_pl := first [reflexivity | assumption | constructor; fail | idtac].
Lemma rinv_step c i : rinv c -> rinv (stepr c i).
Proof.
  intros I. pose proof (r_pan _ I) as Hpan. unfold fstep. rewrite Hpan. destruct (r_stk _ I) as (plain & tail & b & Hk & Hp & Hph & Hsh & Hpm). pose proof (r_sub _ I) as Hsub0. destruct (r_sub _ I) as (m & Hm & Hh & Hrq & Hcn). pose proof (r_cb _ I) as Hcb. pose proof (r_th _ I) as Hth.
  assert (S0 : nth_error (fc_subs c) 0 = Some m) by now rewrite Hm.
  assert (Sk : forall s, s <> 0%nat -> nth_error (fc_subs c) s = None) by (intros [|s] X; [congruence|rewrite Hm; cbn; apply nth_nil]).
  assert (Sub : forall m', fs_h m' = fs_h m -> fs_request m' = fs_request m -> fs_cancel m' = fs_cancel m -> the_sub (mset (fc_subs c) 0 m')).
  { intros m' E1 E2 E3. exists m'. rewrite Hm. repeat split; congruence. }
  destruct plain as [|it plain].
  - (* the slice's own code *)
    cbn [app] in Hk. rewrite Hk. destruct tail as [|it rest].
    + destruct (nth_error (fc_threads c) i) as [th|] eqn:Et; [|exact I].
      assert (Hthok : thok th) by (eapply Forall_forall; [exact Hth|eapply nth_error_In; eauto]).
      destruct (nth_error_split _ _ Et) as (a & d & Ha & Hl). subst i.
      replace (firstn (List.length a) (fc_threads c)) with a by (rewrite Ha, firstn_app, Nat.sub_diag, firstn_all; cbn; now rewrite app_nil_r).
      replace (skipn (S (List.length a)) (fc_threads c)) with d by (rewrite Ha; clear; induction a; cbn; auto).
      rewrite Ha in Hth, Hpm. apply Forall_app in Hth. destruct Hth as [Ta Td]. inversion Td as [|? ? _ Td']; subst.
      constructor; cbn [fc_panicked fc_subs fc_callbacks fc_threads fc_trace fc_stack fc_store]; auto; [apply Forall_app; auto|].
      rewrite flat_map_app in Hpm. cbn [flat_map rpreq app] in Hpm. destruct Hthok as [F|(n & Hn & ->)].
      * exists th, [], b. split; [now rewrite app_nil_r|]. split; [exact F|]. split; [exact Hph|]. split; [exact Hsh|]. cbn [rpreq flat_map app]. rewrite flat_map_app.
        assert (Z0 : rpreq th = []). { clear - F. induction F as [|x l Hx _ IH]; [reflexivity|]. unfold rpreq in *. cbn [flat_map]. rewrite IH, app_nil_r. destruct x; try reflexivity. destruct Hx. }
        unfold rpreq in Hpm, Z0. rewrite Z0 in Hpm. exact Hpm.
      * exists [], [FReq 0 n], b. split; [reflexivity|]. split; [constructor|]. split; [|split; [exact Hsh|]].
        -- inversion Hph as [sr b' G E0 E1 E2 E3| | | | |]; subst. now constructor.
        -- cbn [rpreq flat_map app] in *. rewrite flat_map_app. rewrite Hpm. apply Permutation_app_head. apply Permutation_sym, Permutation_middle.
    + inversion Hph as [ |sr b' n G Hn E0 E1 E2 E3 E4|sr b' n G Hn E0 E1 E2 E3 E4|sr b' n i' num G Hn Hnum Hi E0 E1 E2 E3 E4|sr b' n i' num v G Hn Hnum Hi Hv E0 E1 E2 E3 E4|sr b' Hsr Hlen E0 E1 E2 E3 E4]; subst; cbn [do_fitem].
      * (* request arrives *)
        unfold do_req. rewrite S0, Hrq. constructor; cbn [femit fc_panicked fc_subs fc_callbacks fc_threads fc_trace fc_stack fc_store]; auto; [now rewrite app_nil_r|].
        exists [], [FAct (FDo (RespStart 0 n))], b. split; [reflexivity|]. split; [constructor|]. rewrite nexts_app, srcreqs_app, shown_app, demands_app, app_nil_r. cbn [nexts srcreqs shown demands next_of srcreq_of fcalls fcall_of demand_of flat_map filter app Nat.eqb]. rewrite !app_nil_r. split; [|split; [exact Hsh|]].
        -- rewrite <- E1, <- E4. now constructor.
        -- rewrite Hpm. cbn [rpreq flat_map app]. rewrite <- app_assoc. reflexivity.
      * (* the number of values is computed *)
        cbn [resp_code]. destruct (n <? 0)%Z eqn:En; [lia|]. constructor; cbn [fc_panicked fc_subs fc_callbacks fc_threads fc_trace fc_stack fc_store]; auto.
        exists [], [FAct (FDo (RespLoop 0 0 (Nat.min (List.length (fc_store c)) (Z.to_nat n))))], b. split; [reflexivity|]. split; [constructor|]. split; [|split; [exact Hsh|exact Hpm]].
        rewrite <- E1, <- E2, <- E4. replace (firstn (total sr) slice) with (firstn (total sr + 0) slice) by (f_equal; lia). constructor; auto; lia.
      * (* the loop *)
        cbn [resp_code]. rewrite <- E4. destruct (Nat.ltb_spec i' (Nat.min (List.length (skipn (total sr) slice)) (Z.to_nat n))) as [Hlt|Hge].
        -- destruct (nth_error (skipn (total sr) slice) i') as [v|] eqn:Ev; [|exfalso; apply nth_error_None in Ev; lia].
           constructor; cbn [fc_panicked fc_subs fc_callbacks fc_threads fc_trace fc_stack fc_store]; auto.
           exists [], [FAct (FCall 0 (KNext v)); FAct (FDo (RespLoop 0 (S i') (Nat.min (List.length (skipn (total sr) slice)) (Z.to_nat n))))], b. split; [reflexivity|]. split; [constructor|]. split; [|split; [exact Hsh|exact Hpm]].
           rewrite <- E1, <- E2. now constructor.
        -- destruct (Nat.leb_spec (Nat.min (List.length (skipn (total sr) slice)) (Z.to_nat n)) (List.length (skipn (total sr) slice))) as [_|X]; [|lia].
           rewrite skipn_length in *. assert (T' : total (sr ++ [n]) = (total sr + Z.to_nat n)%nat) by (rewrite total_app; unfold total; cbn; lia).
           assert (Hsk : skipn (Nat.min (List.length slice - total sr) (Z.to_nat n)) (skipn (total sr) slice) = skipn (total (sr ++ [n])) slice).
           { rewrite T'. assert (SA : forall (l : list V) x y, skipn x (skipn y l) = skipn (y + x) l). { clear. intros l x y. revert l. induction y as [|y IH]; intros l; [reflexivity|]. destruct l; [now rewrite !skipn_nil|]. cbn [skipn Nat.add]. apply IH. }
             rewrite SA. destruct (Nat.le_ge_cases (List.length slice - total sr) (Z.to_nat n)) as [Hc|Hc]; [|f_equal; lia]. rewrite !skipn_all2 by lia. reflexivity. }
           assert (Hfi : firstn (total sr + i') slice = firstn (total (sr ++ [n])) slice).
           { rewrite T'. destruct (Nat.le_ge_cases (List.length slice - total sr) (Z.to_nat n)) as [Hc|Hc]; [|f_equal; lia]. rewrite !firstn_all2 by lia. reflexivity. }
           constructor; cbn [fc_panicked fc_subs fc_callbacks fc_threads fc_trace fc_stack fc_store]; auto. rewrite Hsk, skipn_length. destruct (Nat.eqb_spec (List.length slice - total (sr ++ [n])) 0) as [Hz|Hz].
           ++ exists [], [FAct (FCall 0 KComplete)], b. split; [reflexivity|]. split; [constructor|]. split; [|split; [exact Hsh|exact Hpm]]. rewrite <- E1, <- E2, Hfi. constructor; [now destruct sr|lia].
           ++ exists [], [], b. split; [reflexivity|]. split; [constructor|]. split; [|split; [exact Hsh|exact Hpm]]. rewrite <- E1, <- E2, Hfi. constructor.
              unfold good in *. split; [intros X; apply G in X; lia|intros [_ X]; lia].
      * (* a value is handed over *)
        assert (Hb : b = 0%nat). { destruct b; [reflexivity|]. destruct (proj1 G ltac:(discriminate)) as [_ X]. rewrite skipn_all2 in Hv by lia. destruct i'; discriminate Hv. }
        assert (Hfv : firstn (total sr + S i') slice = firstn (total sr + i') slice ++ [v]).
        { replace (total sr + S i')%nat with (S (total sr + i')) by lia. assert (N : nth_error slice (total sr + i') = Some v). { rewrite <- (firstn_skipn (total sr) slice). rewrite skipn_length in Hi. rewrite nth_error_app2; rewrite firstn_length_le by lia; [|lia]. replace (total sr + i' - total sr)%nat with i' by lia. exact Hv. }
          clear - N. revert N. generalize (total sr + i')%nat. intros k. revert k. induction slice as [|x l IH]; intros [|k] N; cbn in N |- *; try discriminate N; [injection N as ->; reflexivity|]. f_equal. now apply IH. }
        subst b. unfold do_fcall. rewrite S0.
        assert (K : forall c' pre ev, fc_panicked c' = false -> the_sub (fc_subs c') -> fc_callbacks c' = fc_callbacks c -> fc_threads c' = fc_threads c -> fc_store c' = fc_store c -> fc_trace c' = fc_trace c ++ ev ->
           fc_stack c' = pre ++ [FAct (FDo (RespLoop 0 (S i') (Nat.min (List.length (skipn (total sr) slice)) (Z.to_nat n))))] -> Forall pok pre ->
           nexts ev = [v] -> srcreqs 0 ev = [] -> shown ev = [KNext v] -> demands 0 ev = [] -> rinv c').
        { intros c' pre ev K1 K2 K3 K4 K5 K6 K7 K8 K9 K10 K11 K12. constructor; auto; [now rewrite K3|now rewrite K4|]. exists pre. eexists. exists 0%nat. split; [exact K7|]. split; [exact K8|]. rewrite K6, K5, K4, nexts_app, srcreqs_app, shown_app, demands_app, K9, K10, K11, K12, !app_nil_r.
          split; [|split].
          - rewrite <- E1, <- E2, <- E4, <- Hfv. constructor; auto; lia.
          - rewrite Hsh. cbn [repeat]. rewrite !app_nil_r, map_app. reflexivity.
          - exact Hpm. }
        destruct (fs_closed m).
        -- eapply (K _ [] [VCalled 0 (KNext v)]); cbn [femit fc_panicked fc_subs fc_callbacks fc_threads fc_trace fc_stack fc_store]; rewrite ?app_nil_r; auto.
        -- destruct (fh_next (fs_h m)) as [f|] eqn:Hf.
           ++ eapply (K _ (facts (f (fc_trace c ++ [VCalled 0 (KNext v); VOnNext 0 v]) v) ++ [FAfterNext 0]) [VCalled 0 (KNext v); VOnNext 0 v]); cbn [femit fc_panicked fc_subs fc_callbacks fc_threads fc_trace fc_stack fc_store]; rewrite ?app_nil_r, <- ?app_assoc; auto.
              apply Forall_app. split; [|repeat constructor]. apply modest_pok. rewrite Hh in Hf. eapply (oh_next _ mh). exact Hf.
           ++ eapply (K _ [FAfterNext 0] [VCalled 0 (KNext v)]); cbn [femit fc_panicked fc_subs fc_callbacks fc_threads fc_trace fc_stack fc_store]; rewrite ?app_nil_r; auto. repeat constructor.
      * (* completion *)
        unfold do_fcall. rewrite S0.
        assert (K : forall c' pre ev, fc_panicked c' = false -> the_sub (fc_subs c') -> fc_callbacks c' = fc_callbacks c -> fc_threads c' = fc_threads c -> fc_store c' = fc_store c -> fc_trace c' = fc_trace c ++ ev ->
           fc_stack c' = pre -> Forall pok pre -> nexts ev = [] -> srcreqs 0 ev = [] -> shown ev = [KComplete] -> demands 0 ev = [] -> rinv c').
        { intros c' pre ev K1 K2 K3 K4 K5 K6 K7 K8 K9 K10 K11 K12. constructor; auto; [now rewrite K3|now rewrite K4|]. exists pre, [], (S b). split; [now rewrite app_nil_r|]. split; [exact K8|]. rewrite K6, K5, K4, nexts_app, srcreqs_app, shown_app, demands_app, K9, K10, K11, K12, !app_nil_r.
          split; [|split].
          - rewrite <- E1, <- E4. constructor. split; auto.
          - rewrite Hsh, <- app_assoc. f_equal. change (S b) with (1 + b)%nat. replace (1 + b)%nat with (b + 1)%nat by lia. now rewrite repeat_app.
          - exact Hpm. }
        destruct (fs_closed m).
        -- eapply (K _ [] [VCalled 0 KComplete]); cbn [femit fc_panicked fc_subs fc_callbacks fc_threads fc_trace fc_stack fc_store]; rewrite ?app_nil_r; auto.
        -- destruct (fh_complete (fs_h m)) as [f|] eqn:Hf.
           ++ eapply (K _ (facts (f (fc_trace c ++ [VCalled 0 KComplete; VOnComplete 0])) ++ [FFinal 0 SigComplete]) [VCalled 0 KComplete; VOnComplete 0]); cbn [femit fc_panicked fc_subs fc_callbacks fc_threads fc_trace fc_stack fc_store]; rewrite ?app_nil_r, <- ?app_assoc; auto.
              apply Forall_app. split; [|repeat constructor]. apply modest_pok. rewrite Hh in Hf. eapply (oh_complete _ mh). exact Hf.
           ++ eapply (K _ [FFinal 0 SigComplete] [VCalled 0 KComplete]); cbn [femit fc_panicked fc_subs fc_callbacks fc_threads fc_trace fc_stack fc_store]; rewrite ?app_nil_r; auto. repeat constructor.
  - (* the subscriber's code *)
    cbn [app] in Hk. rewrite Hk. inversion Hp as [|? ? Hit Hrest]; subst.
    destruct it as [[s k|s rq cn|s n|h'|id fn|o|k]|s|s|s g|s g|id fn g|s n|s]; cbn [do_fitem]; cbn [pok] in Hit; try (exfalso; inversion Hit; fail).
    + assert (k = KCancel) as -> by now inversion Hit. unfold do_fcall. destruct (Nat.eq_dec s 0) as [-> |Hs]; [|rewrite (Sk s Hs); pl (@nil event) (@nil item) (@nil (list item))].
      rewrite S0, Hcn. pl [VCalled 0 KCancel : event] [FCancelFin 0 : item] (@nil (list item)). all: repeat constructor.
    + assert (Hn : (0 <= n)%Z) by now inversion Hit. unfold do_request. destruct (Nat.eq_dec s 0) as [-> |Hs]; [|rewrite (Sk s Hs); pl (@nil event) (@nil item) (@nil (list item))].
      rewrite S0, Hrq. pl [VDemand 0 n : event] (@nil item) [[FReq 0 n : item]]. all: constructor; [right; exists n; auto|constructor].
    + assert (Pf : forall t g, Forall modest (fn t g)) by now inversion Hit. unfold do_fnotify. destruct (match fc_cur c with Some _ => _ | None => _ end) as [m0|]; [destruct (fs_closed m0)|].
      * pl [VRegistered id : event] [FFire id fn (fs_signal m0) : item] (@nil (list item)). all: constructor; [exact Pf|constructor].
      * pl [VRegistered id : event] (@nil item) (@nil (list item)). all: apply Forall_app; split; auto.
      * pl [VRegistered id : event] (@nil item) (@nil (list item)). all: apply Forall_app; split; auto.
    + pl [VObs o : event] (@nil item) (@nil (list item)).
    + destruct (nth_error (fc_subs c) s) as [m0|]; [destruct (fs_n m0 =? 0)%Z|].
      * pl (@nil event) [FHandle s : item] (@nil (list item)). all: repeat constructor.
      * pl (@nil event) (@nil item) (@nil (list item)).
      * pl (@nil event) (@nil item) (@nil (list item)).
    + unfold do_handle. destruct (Nat.eq_dec s 0) as [-> |Hs]; [|rewrite (Sk s Hs); pl (@nil event) (@nil item) (@nil (list item))].
      rewrite S0. destruct (fh_norequest (fs_h m)); [pl (@nil event) (@nil item) (@nil (list item))|]. destruct (fh_request (fs_h m)) as [f|] eqn:Hf.
      * pl [VOnRequest 0 : event] (facts (f (fc_trace c ++ [VOnRequest 0]) 0%nat)) (@nil (list item)). all: apply modest_pok; rewrite Hh in Hf; eapply (oh_request _ mh); exact Hf.
      * pl (@nil event) [FAct (FRequest 0 2147483647) : item] (@nil (list item)). all: constructor; [|constructor]; constructor; lia.
    + unfold do_ffinal. destruct (Nat.eq_dec s 0) as [-> |Hs]; [|rewrite (Sk s Hs); pl (@nil event) (@nil item) (@nil (list item))].
      rewrite S0. destruct (fh_finally (fs_h m)) as [f|] eqn:Hf.
      * pl [VSignal 0 g : event; VFinally 0 g] (facts (f (fc_trace c ++ [VSignal 0 g : event; VFinally 0 g]) g) ++ [FLoop 0 g]) (@nil (list item)). all: apply Forall_app; split; [|repeat constructor]; apply modest_pok; rewrite Hh in Hf; eapply (oh_finally _ mh); exact Hf.
      * pl [VSignal 0 g : event] [FLoop 0 g : item] (@nil (list item)). all: repeat constructor.
    + pl (@nil event) (map (fun cb : N * (list event -> signal -> list act) => FFire (fst cb) (snd cb) g : item) (fc_callbacks c)) (@nil (list item)).
      all: clear - Hcb; induction Hcb; constructor; auto.
    + pl [VFired id g : event] (facts (fn (fc_trace c ++ [VFired id g]) g)) (@nil (list item)). all: apply modest_pok, Hit.
    + unfold do_cancelfin. destruct (Nat.eq_dec s 0) as [-> |Hs]; [|rewrite (Sk s Hs); pl (@nil event) (@nil item) (@nil (list item))].
      rewrite S0. destruct (fh_finally (fs_h m)) as [f|] eqn:Hf.
      * pl [VFinally 0 SigCancel : event] (facts (f (fc_trace c ++ [VFinally 0 SigCancel : event]) SigCancel)) (@nil (list item)). all: apply modest_pok; rewrite Hh in Hf; eapply (oh_finally _ mh); exact Hf.
      * pl (@nil event) (@nil item) (@nil (list item)).
Qed.
Lemma rinv_run sched c : rinv c -> rinv (frun false resp_source resp_code sched c).
Proof. revert c. induction sched as [|i sched IH]; intros c I; [exact I|]. cbn. apply IH. now apply rinv_step. Qed.
Lemma rinv_init threads : Forall (Forall modest) threads -> rinv (frun false resp_source resp_code [0; 0; 0]%nat (finit slice ([FSubscribe h] :: threads))).
Proof.
  intros Hth. cbn. constructor; cbn [femit fc_panicked fc_subs fc_callbacks fc_threads fc_stack fc_trace fc_store].
  - reflexivity.
  - eexists. split; [reflexivity|]. auto.
  - constructor.
  - rewrite app_nil_r. induction Hth as [|th l H Hl IH]; constructor; auto. left. now apply modest_pok.
  - exists [FHandle 0], [], 0%nat. split; [reflexivity|]. split; [repeat constructor|]. split; [|split; [reflexivity|]].
    + cbn. apply (ph_idle [] 0). split; [congruence|intros [X _]; congruence].
    + cbn. rewrite app_nil_r. clear. induction threads as [|th l IH]; cbn; [constructor|]. replace (rpreq (facts th)) with (@nil Z) by (induction th; auto). exact IH.
Qed.
End Resp.

Definition from_response {V E O} (slice : list V) (h : fhandlers V E O rcode) (threads : list (list (fact V E O rcode))) (sched : list nat) : fconf V E O rcode (list V) :=
  frun false resp_source resp_code (0 :: 0 :: 0 :: sched)%nat (finit slice ([FSubscribe h] :: threads)).
Lemma from_response_inv V E O slice (h : fhandlers V E O rcode) threads sched :
  modest_handlers h -> Forall (Forall modest) threads -> rinv slice h (from_response slice h threads sched).
Proof.
  intros H1 H2. unfold from_response. change (0 :: 0 :: 0 :: sched)%nat with ([0; 0; 0] ++ sched)%nat. unfold frun. rewrite fold_left_app.
  apply (rinv_run slice h H1 sched). now apply rinv_init.
Qed.
Lemma total_one : forall n, total [n] = Z.to_nat n.
Proof. intros n. unfold total. cbn. lia. Qed.
Lemma phase_prefix V E O (slice : list V) (tail : list (fitem V E O rcode)) nx sr b st : phase slice tail nx sr b st -> nx = firstn (List.length nx) slice /\ (List.length nx <= total sr)%nat.
Proof.
  assert (F : forall k, firstn k slice = firstn (List.length (firstn k slice)) slice).
  { intros k. rewrite firstn_length. destruct (Nat.le_ge_cases k (List.length slice)); [f_equal; lia|]. rewrite !firstn_all2 by lia. reflexivity. }
  intros H. inversion H; subst; (split; [apply F|]); rewrite firstn_length, ?total_app, ?total_one; rewrite ?skipn_length in *; lia.
Qed.
(** At every moment a prefix of the slice has been handed over, in order and
    within the demand; nothing panics. *)
Theorem C81_prefix_within_demand :
  forall V E O slice (h : fhandlers V E O rcode) threads sched,
    modest_handlers h -> Forall (Forall modest) threads ->
    let t := fc_trace (from_response slice h threads sched) in
    nexts t = firstn (List.length (nexts t)) slice /\ (List.length (nexts t) <= total (srcreqs 0 t))%nat /\
    (forall e, ~ In (KError e) (fcalls 0 t)) /\ fc_panicked (from_response slice h threads sched) = false.
Proof.
  intros V E O slice h threads sched H1 H2 t. destruct (from_response_inv V E O slice h threads sched H1 H2) as [P _ _ _ (plain & tail & b & _ & _ & Hph & Hsh & _)]. fold t in Hph, Hsh. apply phase_prefix in Hph. destruct Hph as [A B]. repeat split; auto.
  intros e X. assert (Y : In (KError e) (shown t)) by (apply filter_In; auto). rewrite Hsh in Y. apply in_app_iff in Y as [Y|Y]; [apply in_map_iff in Y as (? & ? & _); discriminate|apply repeat_spec in Y; discriminate].
Qed.
(** When all goroutines are done: exactly what was asked for. *)
Theorem C81_exactly_what_was_requested :
  forall V E O slice (h : fhandlers V E O rcode) threads sched,
    modest_handlers h -> Forall (Forall modest) threads ->
    let c := from_response slice h threads sched in
    fc_stack c = [] -> fc_threads c = [] ->
    nexts (fc_trace c) = firstn (total (demands 0 (fc_trace c))) slice /\
    (In KComplete (fcalls 0 (fc_trace c)) <-> demands 0 (fc_trace c) <> [] /\ (List.length slice <= total (demands 0 (fc_trace c)))%nat).
Proof.
  intros V E O slice h threads sched H1 H2 c Hk Hth. destruct (from_response_inv V E O slice h threads sched H1 H2) as [_ _ _ _ (plain & tail & b & Hs & _ & Hph & Hsh & Hpm)]. fold c in Hs, Hph, Hsh, Hpm. rewrite Hk in Hs. symmetry in Hs. apply app_eq_nil in Hs. destruct Hs as [-> ->]. rewrite Hth in Hpm. cbn [rpreq flat_map app] in Hpm. rewrite app_nil_r in Hpm.
  assert (T : total (demands 0 (fc_trace c)) = total (srcreqs 0 (fc_trace c))) by (unfold total; apply Permutation_list_sum; now apply Permutation_map).
  assert (N1 : demands 0 (fc_trace c) <> [] <-> srcreqs 0 (fc_trace c) <> []).
  { split; intros X Y; apply X; rewrite Y in Hpm; [now apply Permutation_sym, Permutation_nil in Hpm|now apply Permutation_nil in Hpm]. }
  rewrite T, N1. inversion Hph as [sr b' G E0 E1 E2 E3| | | | |]; subst. split; [reflexivity|]. unfold good in G. rewrite <- G. assert (M : In KComplete (fcalls 0 (fc_trace c)) <-> In KComplete (shown (fc_trace c))) by (unfold shown; rewrite filter_In; intuition).
  rewrite M, Hsh, in_app_iff. split.
  - intros [X|X]; [apply in_map_iff in X as (? & ? & _); discriminate|]. destruct b; [destruct X|discriminate].
  - intros X. right. destruct b; [congruence|now left].
Qed.
(** So a subscriber with all callbacks that does not cancel sees exactly that. *)
Theorem C81_subscriber_sees :
  forall V E O slice (h : fhandlers V E O rcode) threads sched,
    modest_handlers h -> Forall (Forall modest) threads -> fh_next h <> None -> fh_complete h <> None ->
    let c := from_response slice h threads sched in
    let asked := demands 0 (fc_trace c) in
    fc_stack c = [] -> fc_threads c = [] -> ~ In KCancel (fcalls 0 (fc_trace c)) -> asked <> [] ->
    delivered 0 (fc_trace c) = map ONext (firstn (total asked) slice) ++ (if (List.length slice <=? total asked)%nat then [OComplete] else []).
Proof.
  intros V E O slice h threads sched H1 H2 Hn Hc c asked Hk Hth Hnc Has.
  destruct (C81_exactly_what_was_requested V E O slice h threads sched H1 H2 Hk Hth) as [X1 X2]. fold c in X1, X2. fold asked in X1, X2.
  destruct (from_response_inv V E O slice h threads sched H1 H2) as [_ (m & Hm & Hh & _) _ _ (plain & tail & b & _ & _ & _ & Hsh & _)]. fold c in Hm, Hsh.
  pose proof (proj1 (finv_run false resp_source resp_code (0 :: 0 :: 0 :: sched)%nat _ (finv_init false slice ([FSubscribe h] :: threads))) 0%nat) as I.
  cbv zeta in I. change (frun false resp_source resp_code _ _) with c in I. rewrite Hm in I. cbn [nth_error] in I.
  rewrite (i_deliv _ _ _ _ _ _ I), Hh.
  assert (F : shown (fc_trace c) = fcalls 0 (fc_trace c)).
  { unfold shown. clear - Hnc. induction (fcalls 0 (fc_trace c)) as [|k l IH]; [reflexivity|]. cbn. destruct k; cbn; try (f_equal; apply IH; intros X; apply Hnc; now right). exfalso. apply Hnc. now left. }
  rewrite F, X1 in Hsh. rewrite Hsh in *. clear - X2 Hn Hc Has.
  assert (G : forall l, flat_map (visible h) (effective (map KNext l ++ repeat KComplete b)) = map ONext l ++ (if Nat.eqb b 0 then [] else [OComplete])).
  { induction l as [|v l IH]; cbn [map app effective is_term].
    - destruct b; [reflexivity|]. cbn. destruct (fh_complete h); [reflexivity|congruence].
    - cbn [flat_map visible]. destruct (fh_next h); [|congruence]. cbn [app]. now rewrite IH. }
  rewrite G. f_equal.
  assert (K : In KComplete (map KNext (firstn (total asked) slice) ++ repeat (@KComplete V E) b) <-> b <> 0%nat).
  { rewrite in_app_iff. split.
    - intros [X|X]; [apply in_map_iff in X as (? & ? & _); discriminate|]. destruct b; [destruct X|discriminate].
    - intros X. right. destruct b; [congruence|now left]. }
  rewrite K in X2. destruct (Nat.eqb_spec b 0) as [Eb|Eb]; destruct (Nat.leb_spec (List.length slice) (total asked)); auto; exfalso.
  - apply X2; auto.
  - apply X2 in Eb. lia.
Qed.
(** A subscriber that asks for two values first and for more from OnNext. *)
Definition c81_h : fhandlers N N N rcode :=
  FHandlers (Some (fun _ v => [FRequest 0 (Z.of_N (v - 5))])) (Some (fun _ => [])) None (Some (fun _ s => [FRequest s 2])) None false.
Definition c81_threads : list (list (fact N N N rcode)) := [[FNotify 1 (fun _ _ => [])]; [FRequest 0 0]].
Definition c81_conf : fconf N N N rcode (list N) := from_response [5; 6; 7; 8; 9] c81_h c81_threads (repeat 0%nat 80).
Example C81_example :
  fc_stack c81_conf = [] /\ fc_threads c81_conf = [] /\ delivered 0 (fc_trace c81_conf) = [ONext 5; ONext 6; ONext 7; ONext 8; ONext 9; OComplete] /\
  modest_handlers c81_h /\ Forall (Forall modest) c81_threads.
Proof.
  split; [reflexivity|]. split; [reflexivity|]. split; [vm_compute; reflexivity|].
  split; [constructor; cbn; intros f Hf; inversion Hf; subst; repeat constructor; lia|repeat constructor; lia].
Qed.
Print Assumptions C81_prefix_within_demand.
Print Assumptions C81_exactly_what_was_requested.
Print Assumptions C81_subscriber_sees.
