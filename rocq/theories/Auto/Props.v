(** C78: the automatic output variables. *)
From Coq Require Import String Ascii.
From stdpp Require Import prelude strings gmap sorting.
From Verif.Base Require Import Result.
From Verif.SelOut Require Import Model Spec Proofs GetProofs Props Select.
From Verif.Auto Require Import Model Spec Proofs.
Open Scope string_scope.
Open Scope list_scope.

(** The punches of one run *)
Section Table.
Context {D : Type}.
Lemma log_punches its (sol : punch -> D) : forall l, NoDup (l_heads l ++ its.*1) ->
  foldl log_event l (map (fun q => Punch q.1 (VDbl (sol q.2))) its) =
  Log (l_heads l ++ its.*1) (l_done l) (l_cur l ++ map (fun q => (q.1, VDbl (sol q.2))) its).
Proof.
  induction its as [|[n p] its IH]; intros l Hn; cbn.
  - rewrite !app_nil_r. by destruct l.
  - cbn in Hn. assert (Hnot : n ∉ l_heads l).
    { apply NoDup_app in Hn as (_ & Hx & _). intros Hin. apply (Hx n Hin). left. }
    unfold note. rewrite decide_False by done. rewrite IH; cbn [l_heads l_done l_cur].
    + by rewrite <- !app_assoc.
    + by rewrite <- app_assoc.
Qed.
Lemma punched_log its (sol : punch -> D) t : punched its sol t -> NoDup (its.*1) -> its <> [] ->
  inv t (Log (its.*1) [map (fun q => (q.1, VDbl (sol q.2))) its] []).
Proof.
  intros Hp Hn Hne. apply made_inv in Hp. unfold log_of in Hp. rewrite foldl_app in Hp.
  rewrite log_punches in Hp by done. cbn in Hp. rewrite decide_False in Hp; [done|]. by destruct its.
Qed.
Lemma latest_punch its (sol : punch -> D) n p : NoDup (its.*1) -> (n, p) ∈ its ->
  latest n (map (fun q => (q.1, VDbl (sol q.2))) its) = VDbl (sol p).
Proof.
  induction its as [|q its IH] using rev_ind; [by intros _ ?%elem_of_nil|].
  rewrite fmap_app, map_app. cbn. intros Hn Hin. apply NoDup_app in Hn as (Hn & Hx & _).
  rewrite latest_app. cbn. apply elem_of_app in Hin as [Hin|Hin].
  - rewrite decide_False; [by apply IH|]. intros <-. apply (Hx q.1); [|left].
    apply elem_of_list_fmap. by eexists (_, _).
  - apply elem_of_list_singleton in Hin as <-. by rewrite decide_True.
Qed.
End Table.

Lemma record_other its : forall c m k, k ∉ map (fun q => lowered q.1) its -> record c its m !! k = m !! k.
Proof.
  induction its as [|[n p] its IH]; intros c m k Hk; [done|]. cbn in *. apply not_elem_of_cons in Hk as [H1 H2].
  rewrite IH by done. by rewrite lookup_insert_ne.
Qed.
Lemma record_column its : NoDup (map (fun q => lowered q.1) its) -> forall c m i n p, its !! i = Some (n, p) ->
  record c its m !! lowered n = Some (n, c + i).
Proof.
  induction its as [|[n0 p0] its IH]; intros Hn c m i n p Hi; [done|]. cbn in Hn.
  apply NoDup_cons in Hn as [Hx Hn]. cbn. destruct i as [|i]; cbn in Hi.
  - injection Hi as -> ->. rewrite record_other by done. rewrite lookup_insert. do 2 f_equal. lia.
  - rewrite (IH Hn (S c) _ i n p Hi). do 2 f_equal. lia.
Qed.
Lemma record_known its : forall c m k, is_Some (record c its m !! k) <->
  k ∈ map (fun q => lowered q.1) its \/ is_Some (m !! k).
Proof.
  induction its as [|[n p] its IH]; intros c m k; cbn.
  - rewrite elem_of_nil. tauto.
  - rewrite IH, elem_of_cons. destruct (decide (lowered n = k)) as [->|Hne].
    + rewrite lookup_insert. split; [by left; left|]. intros _. right. eauto.
    + rewrite lookup_insert_ne by done. naive_solver.
Qed.

Section Values.
Context {D : Type} (inactive : D) (of_long : Z -> D) (zero : D).
Notation get_value := (get_value inactive of_long zero).
Notation do_quiet := (do_quiet inactive of_long zero).
Notation do_quiets := (do_quiets inactive of_long zero).
Notation fetch := (fetch inactive of_long zero).

Lemma copy_spec (v : list D) n : forall from, from + n <= length v -> copy v from n = Ret (take n (drop from v)).
Proof.
  induction n as [|n IH]; intros from H; cbn; [by rewrite take_0|].
  destruct (lookup_lt_is_Some_2 v from) as [x Hx]; [lia|]. rewrite Hx, IH by lia. cbn.
  by rewrite (drop_S _ x from Hx).
Qed.

(** What stays when nothing runs: the array [A] is what the cache has or will have. *)
Record steady (nxyz : nat) (bwd : list (list nat)) (A : list D) (st0 st : bmi D) : Prop := {
  sd_vars : b_vars st = b_vars st0;
  sd_tabs : z_tabs (b_sel st) = z_tabs (b_sel st0);
  sd_cur : (0 <= z_cur (b_sel st))%Z;
  sd_cache : b_cache st = [] \/ b_cache st = A }.
Lemma fetch_steady nxyz bwd A st0 st :
  get_selected_output inactive of_long zero nxyz bwd bmi_number (z_tabs (b_sel st0)) [] = Ret (IRM_OK, Some A) ->
  steady nxyz bwd A st0 st -> exists st', fetch nxyz bwd st = Ret st' /\ steady nxyz bwd A st0 st' /\
    b_cache st' = A /\ z_cur (b_sel st') = z_cur (b_sel st).
Proof.
  intros HA [Hv Ht Hc Hca]. unfold Model.fetch. destruct (b_cache st) as [|x c] eqn:E.
  - assert (Hsc : forall (s : sel D) n, (0 <= n)%Z -> set_current s n = (0%Z, Sel (z_defs s) (z_tabs s) n)).
    { intros s n Hn. unfold set_current. by rewrite decide_True. }
    rewrite (Hsc (b_sel st) bmi_number) by (unfold bmi_number; lia). cbn [snd z_tabs z_cur].
    rewrite Ht, HA. cbn [obind snd]. eexists. split; [done|]. rewrite Hsc by done.
    split; [|done]. split; cbn; try done. by right.
  - exists st. split; [done|]. split; [split; try done; by rewrite E|]. split; [|done].
    destruct Hca as [Hca|Hca]; [done|by rewrite E].
Qed.

Lemma choose_nonneg c (s : sel D) : (0 <= z_cur s)%Z -> (0 <= z_cur (do_choose c s))%Z.
Proof.
  intros H. destruct c; cbn; unfold set_nth, set_current; repeat case_decide; cbn; try done.
  destruct (_ !! _); repeat case_decide; done.
Qed.

(** ** C78 *)

(** FindComponents makes a variable for everything that the options ask for and for nothing else. *)
Theorem auto_wanted ok l (st : bmi D) : says "true" (b_defs st AddOutputVars) ->
  forall k, is_Some (b_vars (generate ok l st) !! k) <->
    (exists n p, wanted (b_defs st) l n p /\ k = lowered n) \/ is_Some (b_vars st !! k).
Proof.
  intros Hs k. unfold generate, says in *. rewrite process_spec. rewrite Hs. cbn [b_vars].
  rewrite decide_False, decide_True by done. cbn [b_vars]. rewrite record_known, elem_map.
  apply or_iff_compat_r. split.
  - intros ([n p] & -> & H). exists n, p. split; [by apply items_wanted|done].
  - intros (n & p & H & ->). exists (n, p). split; [done|]. by apply items_wanted.
Qed.

(** With AddOutputVars other than "true", none. *)
Theorem auto_off ok l (st : bmi D) : ~ says "true" (b_defs st AddOutputVars) ->
  b_vars (generate ok l st) = b_vars st /\ b_items (generate ok l st) = b_items st.
Proof.
  intros Hs. unfold generate. rewrite process_spec. unfold says in Hs.
  case_decide; [done|]. rewrite decide_False by done. done.
Qed.

(** The names listed after the first FindComponents are the wanted ones, spelled as wanted. *)
Theorem auto_listed ok l (st : bmi D) : says "true" (b_defs st AddOutputVars) -> b_vars st = ∅ ->
  NoDup (map (fun q => lowered q.1) (items (b_defs st) l)) ->
  forall n, n ∈ auto_names (generate ok l st) <-> exists p, wanted (b_defs st) l n p.
Proof.
  intros Hs H0 Hnd n. unfold auto_names. rewrite elem_map.
  assert (E : b_vars (generate ok l st) = record 0 (items (b_defs st) l) ∅).
  { unfold generate, says in *. rewrite process_spec, Hs. rewrite decide_False, decide_True by done. by rewrite <- H0. }
  rewrite E. split.
  - intros ([k [n' c]] & -> & Hin). cbn. apply elem_of_map_to_list in Hin.
    assert (Hk : is_Some (record 0 (items (b_defs st) l) ∅ !! k)) by eauto.
    apply record_known in Hk as [Hk|[x Hk]]; [|by rewrite lookup_empty in Hk].
    apply elem_map in Hk as ([n0 p] & -> & Hq). exists p. apply items_wanted. cbn in Hin.
    pose proof Hq as [i Hi]%elem_of_list_lookup. rewrite (record_column _ Hnd 0 ∅ i n0 p Hi) in Hin.
    by injection Hin as <- _.
  - intros (p & Hw). apply items_wanted, elem_of_list_lookup in Hw as [i Hi].
    exists (lowered n, (n, 0 + i)). split; [done|]. apply elem_of_map_to_list. by eapply record_column.
Qed.

(** After FindComponents and a run with selected output on, and after any choices of selected outputs
    and reads of variables, each variable, under any spelling of its name, shows for every grid cell
    what it is to show in the cell's chemistry cell; the chosen selected output stays chosen. *)
Theorem auto_values l (st st2 : bmi D) dummy wet run splits sol nxyz bwd fwd qs :
  says "true" (b_defs st AddOutputVars) ->
  NoDup (map (fun q => lowered q.1) (items (b_defs st) l)) -> items (b_defs st) l <> [] ->
  (forall k, is_Some (b_vars st !! k) -> exists n p, wanted (b_defs st) l n p /\ k = lowered n) ->
  let st1 := generate true l st in
  Sorted Z.lt (z_defs (b_sel st)) -> Forall (Z.le 0) (z_defs (b_sel st)) ->
  bmi_ran true dummy wet run splits st1 st2 -> splits <> [] -> concat splits = seq 0 (length bwd) ->
  auto_run (items (b_defs st) l) (z_defs (b_sel st1)) dummy wet run (length bwd) sol ->
  (forall i js j, bwd !! i = Some js -> (j ∈ js <-> fwd j = Some i /\ j < nxyz)) ->
  exists st3, do_quiets nxyz bwd qs st2 = Ret st3 /\
  forall name n p, wanted (b_defs st) l n p -> lowered name = lowered n ->
    exists v st4, get_value nxyz bwd name st3 = Ret (v, st4) /\ length v = nxyz /\
      z_cur (b_sel st4) = z_cur (b_sel st3) /\
      (forall j x, j < nxyz -> fwd j = Some x -> x < length bwd ->
         v !! j = Some (if wet x then sol x p else inactive)) /\
      (forall j, j < nxyz -> fwd j = None -> v !! j = Some zero).
Proof.
  intros Hs Hnd Hne Hstale st1 Hsort H0 Hran Hsp Hcc Har Hb.
  set (its := items (b_defs st) l) in *.
  assert (Hnd1 : NoDup (its.*1)).
  { clear -Hnd. induction its as [|q its IH]; [constructor|]. cbn in *. apply NoDup_cons in Hnd as [H1 H2].
    constructor; [|by apply IH]. intros Hin. apply H1. apply elem_of_list_fmap in Hin as (q' & E & Hq').
    apply elem_map. exists q'. by rewrite E. }
  assert (E1 : st1 = Bmi (b_defs st) (record 0 its (b_vars st)) its (b_cache st)
                 (Sel (insert_def bmi_number (z_defs (b_sel st))) (z_tabs (b_sel st)) bmi_number)).
  { unfold st1, generate, says in *. rewrite process_spec, Hs. rewrite decide_False, decide_True by done.
    fold its. rewrite bool_decide_false by done. done. }
  set (defs := insert_def bmi_number (z_defs (b_sel st))) in *.
  assert (Hsort1 : Sorted Z.lt defs) by (by apply insert_def_sorted).
  assert (H01 : Forall (Z.le 0) defs).
  { apply Forall_forall. intros x Hx. apply (proj1 (insert_def_in _ _ _)) in Hx as [->|Hx]; [unfold bmi_number; lia|].
    by eapply Forall_forall in Hx. }
  rewrite E1 in Har, Hran. cbn [z_defs b_sel] in Har.
  inversion Hran as [st' s' Hr E2 E3]; subst st' st2. cbn [b_sel b_defs b_vars b_items] in *. clear Hran.
  inversion Hr as [s0 ws Hk HF E4 E5]; subst s0 s'. cbn [z_defs z_tabs z_cur] in *.
  destruct Har as [Hmade (t0 & sol0 & Hin0 & Hp0) Hrun].
  assert (Hset : run_setup defs dummy wet run bmi_number (its.*1) (length bwd)).
  { split.
    - by apply sorted_nodup.
    - by apply Hk.
    - done.
    - exists t0. split; [done|]. apply punched_log in Hp0; [|done|done]. by rewrite (inv_head _ _ Hp0).
    - by destruct its.
    - intros i Hi Hw. destruct (Hrun i Hi Hw) as (sm & Er & Ht & Hpt). exists sm. split; [done|]. split; [done|].
      intros t Hin k. specialize (Hpt t Hin). apply punched_log in Hpt; [|done|done]. by rewrite (inv_head _ _ Hpt). }
  destruct (selected_output_cells inactive of_long zero defs dummy wet run bmi_number (its.*1) splits nxyz bwd fwd []
    Hset) as (ws' & HF' & A & EA & HlA & HvA & HzA); [unfold bmi_number; lia|done|done|done|].
  assert (ws' = ws) as ->.
  { clear -HF HF'. revert ws ws' HF HF'. induction splits as [|c sp IH]; intros ws1 ws2 H1 H2;
      inversion H1; inversion H2; subst; [done|].
    match goal with H : exists _, _ |- _ => destruct H as [ok E] end. f_equal; [congruence|by apply IH]. }
  set (st2 := Bmi (b_defs st) (record 0 its (b_vars st)) its []
                (Sel defs ws (current_after true dummy bmi_number))).
  assert (S2 : steady nxyz bwd A st2 st2).
  { split; [done|done| |by left]. cbn. unfold current_after. destruct (last dummy) as [q|] eqn:El; [|unfold bmi_number; lia].
    apply last_Some_elem_of in El. assert (Hq : q.1 ∈ defs).
    { rewrite <- (Hk eq_refl). apply elem_of_list_fmap. by exists q. }
    by eapply Forall_forall in H01. }
  assert (Hcol : forall name n p, wanted (b_defs st) l n p -> lowered name = lowered n ->
     exists c, its !! c = Some (n, p) /\ b_vars st2 !! lowered name = Some (n, c)).
  { intros name n p Hw ->. apply items_wanted in Hw. apply elem_of_list_lookup in Hw as [c Hc].
    exists c. split; [done|]. cbn. by rewrite (record_column its Hnd 0 _ c n p Hc). }
  assert (Hlen : forall c n p, its !! c = Some (n, p) -> c * nxyz + nxyz <= length A).
  { intros c n p Hc. rewrite HlA, fmap_length. apply lookup_lt_Some in Hc. nia. }
  assert (Hq : forall qs s, steady nxyz bwd A st2 s -> exists s', do_quiets nxyz bwd qs s = Ret s' /\ steady nxyz bwd A st2 s').
  { clear qs. induction qs as [|q qs IH]; intros s Hst; cbn [Model.do_quiets]; [eauto|].
    assert (exists s1, do_quiet nxyz bwd q s = Ret s1 /\ steady nxyz bwd A st2 s1) as (s1 & E & Hs1).
    { destruct q as [c|name]; cbn [Model.do_quiet].
      - eexists. split; [done|]. destruct Hst as [K1 K2 K3 K4]. split; [exact K1| | |exact K4].
        + transitivity (z_tabs (b_sel s)); [apply do_choose_same|exact K2].
        + by apply choose_nonneg.
      - unfold Model.get_value. destruct (b_vars s !! lowered name) as [[n' c']|] eqn:Ev; [|eauto].
        rewrite (sd_vars _ _ _ _ _ Hst) in Ev.
        assert (exists n p, wanted (b_defs st) l n p /\ lowered name = lowered n) as (n & p & Hw & En).
        { assert (Hx : is_Some (record 0 its (b_vars st) !! lowered name)) by (eexists; exact Ev).
          apply record_known in Hx as [Hx|Hx]; [|naive_solver].
          apply elem_map in Hx as ([n p] & E & Hin). exists n, p. split; [by apply items_wanted|done]. }
        destruct (Hcol name n p Hw En) as (c & Hc & Ec). rewrite Ec in Ev. injection Ev as <- <-.
        destruct (fetch_steady nxyz bwd A st2 s EA Hst) as (s1 & Ef & Hs1 & Eca & _). rewrite Ef. cbn [obind].
        rewrite Eca, copy_spec by (by eapply Hlen). cbn [obind]. eauto. }
    rewrite E. cbn [obind]. by apply IH. }
  destruct (Hq qs st2 S2) as (st3 & Eq & S3). exists st3. split; [done|].
  intros name n p Hw En. destruct (Hcol name n p Hw En) as (c & Hc & Ec).
  destruct (fetch_steady nxyz bwd A st2 st3 EA S3) as (st4 & Ef & S4 & Eca & Ecur).
  exists (take nxyz (drop (c * nxyz) A)), st4. unfold Model.get_value.
  rewrite (sd_vars _ _ _ _ _ S3), Ec, Ef. cbn [obind]. rewrite Eca, copy_spec by (by eapply Hlen).
  split; [done|]. pose proof (Hlen _ _ _ Hc) as Hl. split; [rewrite take_length, drop_length; lia|].
  split; [done|]. assert (Hcn : its.*1 !! c = Some n) by (by rewrite list_lookup_fmap, Hc). split.
  - intros j x Hj Hf Hx. rewrite lookup_take, lookup_drop by done.
    destruct (HvA c n j x Hcn Hj Hf Hx) as (v & Hv & ->). f_equal. unfold cell_value in Hv.
    destruct (wet x) eqn:Ew; [|by subst v]. destruct Hv as (sm & t & Er & Hin & Hv).
    destruct (Hrun x Hx Ew) as (sm' & Er' & _ & Hp). rewrite Er in Er'. injection Er' as <-.
    specialize (Hp t Hin). apply punched_log in Hp; [|done|done].
    assert (Hn : n ∈ its.*1) by (by eapply elem_of_list_lookup_2).
    destruct Hv as [[_ Hv]|[Hv _]]; [|rewrite (inv_head _ _ Hp) in Hv; done].
    pose proof (shows_latest t _ 0 _ n Hp eq_refl Hn) as Hs'.
    rewrite (shows_inj _ _ _ _ _ _ Hp Hv Hs').
    rewrite (latest_punch its (sol x) n p); [done|done|]. by eapply elem_of_list_lookup_2.
  - intros j Hj Hf. rewrite lookup_take, lookup_drop by done.
    rewrite HzA; [|by eapply lookup_lt_Some|done|done]. unfold resize_to. cbn.
    rewrite take_nil. cbn. rewrite Nat.sub_0_r. apply lookup_replicate. split; [done|].
    apply pos_lt; [by eapply lookup_lt_Some|done].
Qed.
End Values.
Print Assumptions auto_wanted.
Print Assumptions auto_off.
Print Assumptions auto_listed.
Print Assumptions auto_values.

(** ** A case: two elements, two cells, one thread *)

Definition tab (its : list (string * punch)) (sol : punch -> Z) : table Z :=
  match do_events (map (fun q => Punch q.1 (VDbl (sol q.2))) its ++ [End]) new_table with Ret t => t | _ => new_table end.
Lemma tab_punched its sol : punched its sol (tab its sol).
Proof.
  unfold punched, tab. destruct (made_ex (map (fun q => Punch q.1 (VDbl (sol q.2))) its ++ [End])) as (t & E & _).
  unfold made in *. by rewrite E.
Qed.
Definition sols (i : nat) (p : punch) : Z :=
  match p with P_tot "Ca" => 100 + Z.of_nat i | P_tot "Na" => 200 + Z.of_nat i | _ => -1 end.
Definition dummy_of its : smap (D := Z) := [(bmi_number, tab its (sols 99))].
Definition run_of its (i : nat) : option (smap (D := Z)) := Some [(bmi_number, tab its (sols i))].
Definition worker_of (on : bool) its : gmap Z (table Z) :=
  match run_thread on (Some (dummy_of its)) (fun _ => true) (run_of its) [0; 1] with Ret (_, w) => w | _ => ∅ end.
Definition after_run (on : bool) (st : bmi Z) : bmi Z :=
  Bmi (b_defs st) (b_vars st) (b_items st) []
    (Sel (z_defs (b_sel st)) [worker_of on (b_items st)] (current_after on (dummy_of (b_items st)) (z_cur (b_sel st)))).
Definition with_option (option def : string) (st : bmi Z) : bmi Z :=
  Bmi (add_output_vars option def (b_defs st)) (b_vars st) (b_items st) (b_cache st) (b_sel st).
Definition shown (name : string) (st : bmi Z) : outcome (list Z) :=
  obind (get_value 999%Z (fun z => z) 0%Z 3 [[0]; [2]] name st) (fun r => Ret r.1).

Definition two_elements : lists := Lists ["Na"; "Ca"] [] [] [] [] [] [] [] [] [].
Definition st_new : bmi Z := with_option "solutionPROPERTIES" "False" (Bmi default_defs ∅ [] [] (Sel [] [∅] 1)).
Definition st_found : bmi Z := generate true two_elements st_new.
Definition two_items : list (string * punch) :=
  [("solution_total_molality_Ca", P_tot "Ca"); ("solution_total_molality_Na", P_tot "Na")].

Lemma made_done its sol : its <> [] -> NoDup (its.*1) -> exists es, made es (tab its sol) /\ 1 <= length (l_done (log_of es)).
Proof.
  intros Hne Hn. eexists. split; [apply tab_punched|]. unfold log_of. rewrite foldl_app, log_punches by done. cbn.
  rewrite decide_False by (by destruct its). done.
Qed.
Lemma after_run_ran st : z_defs (b_sel st) = [bmi_number] -> b_items st <> [] -> NoDup ((b_items st).*1) ->
  bmi_ran true (dummy_of (b_items st)) (fun _ => true) (run_of (b_items st)) [[0; 1]] st (after_run true st).
Proof.
  intros Hd Hne Hn. constructor. constructor; [by rewrite Hd|]. constructor; [|constructor].
  destruct (thread_rows [bmi_number] (dummy_of (b_items st)) (fun _ => true) (run_of (b_items st)) [0; 1])
    as (ok & w & E & _).
  - apply NoDup_singleton.
  - done.
  - intros n t H. apply elem_of_list_singleton in H as [= -> ->]. eexists. apply tab_punched.
  - intros i sm _ _ [= <-]. split; [done|]. intros n t H. apply elem_of_list_singleton in H as [= -> ->].
    by apply made_done.
  - exists ok. unfold worker_of. by rewrite E.
Qed.

Example auto_case :
  items (b_defs st_new) two_elements = two_items /\
  says "true" (b_defs st_new AddOutputVars) /\ NoDup (map (fun q => lowered q.1) two_items) /\ b_vars st_new = ∅ /\
  bmi_ran true (dummy_of two_items) (fun _ => true) (run_of two_items) [[0; 1]] st_found (after_run true st_found) /\
  auto_run two_items (z_defs (b_sel st_found)) (dummy_of two_items) (fun _ => true) (run_of two_items) 2 sols /\
  shown "SOLUTION_total_molality_NA" (after_run true st_found) = Ret [200; 0; 201]%Z /\
  shown "solution_total_molality_ca" (after_run true st_found) = Ret [100; 0; 101]%Z /\
  shown "solution_ph" (after_run true st_found) = Throw.
Proof.
  assert (E : items (b_defs st_new) two_elements = two_items) by (vm_compute; reflexivity).
  assert (Eb : b_items st_found = two_items) by (vm_compute; reflexivity).
  assert (Ed : z_defs (b_sel st_found) = [bmi_number]) by (vm_compute; reflexivity).
  assert (Hn : NoDup (two_items.*1)) by (apply (bool_decide_unpack _); vm_compute; exact I).
  split; [done|]. split; [vm_compute; reflexivity|].
  split; [apply (bool_decide_unpack _); vm_compute; exact I|]. split; [done|]. split.
  { rewrite <- Eb. apply after_run_ran; [done|by rewrite Eb|by rewrite Eb]. }
  split.
  { rewrite Ed. split.
    - intros n t H. apply elem_of_list_singleton in H as [= -> ->]. eexists. apply tab_punched.
    - exists (tab two_items (sols 99)), (sols 99). split; [left|apply tab_punched].
    - intros i _ _. eexists. split; [done|]. split.
      + split; [done|]. intros n t H. apply elem_of_list_singleton in H as [= -> ->]. by apply made_done.
      + intros t H. apply elem_of_list_singleton in H as [= ->]. apply tab_punched. }
  split; [vm_compute; reflexivity|]. split; vm_compute; reflexivity.
Qed.

(** Names that the user lists *)
Example auto_listing_case :
  tokenize (" Calcite,,Dolomite(d)" +:+ String "009" " CO2(g) ") = ["CO2(g)"; "Calcite"; "Dolomite(d)"] /\
  named "Calcite, CO2(g)" "CO2(g)" /\ ~ named "Calcite, CO2(g)" "CO2".
Proof.
  split; [vm_compute; reflexivity|].
  assert (E : tokenize "Calcite, CO2(g)" = ["CO2(g)"; "Calcite"]) by (vm_compute; reflexivity).
  rewrite <- !tokenize_spec, E. split; [left|]. intros H.
  apply elem_of_cons in H as [H|H]; [discriminate H|]. apply elem_of_list_singleton in H. discriminate H.
Qed.

(** ** What fails *)

(** A variable that the options no longer ask for stays, with its old column: it shows another
    variable, or reads past the end of the array. *)
Theorem auto_stale_refuted :
  let st2 := after_run true st_found in
  (let st3 := with_option "SolutionTotalMolalities" "Na" st2 in
   let st5 := after_run true (generate true two_elements st3) in
   (forall n p, wanted (b_defs st3) two_elements n p -> n = "solution_total_molality_Na") /\
   shown "solution_total_molality_Ca" st5 = Ret [200; 0; 201]%Z) /\
  (let st3 := with_option "SolutionTotalMolalities" "Ca" st2 in
   shown "solution_total_molality_Na" (after_run true (generate true two_elements st3)) = UB).
Proof.
  intros st2. split; [|vm_compute; reflexivity]. intros st3 st5. split; [|vm_compute; reflexivity].
  intros n p H%items_wanted.
  assert (E : items (b_defs st3) two_elements = [("solution_total_molality_Na", P_tot "Na")]) by (vm_compute; reflexivity).
  rewrite E in H. by apply elem_of_list_singleton in H as [= -> _].
Qed.
Print Assumptions auto_stale_refuted.

(** FindComponents does not clear the array of the last run: until the next run a variable shows
    what was in its new column. *)
Theorem auto_old_array_refuted :
  let st2 := after_run true st_found in
  forall st3, do_quiets 999%Z (fun z => z) 0%Z 3 [[0]; [2]] [Value "solution_total_molality_Ca"] st2 = Ret st3 ->
  shown "solution_total_molality_Na" st3 = Ret [200; 0; 201]%Z /\
  shown "solution_total_molality_Na" (generate true two_elements (with_option "SolutionTotalMolalities" "Na" st3))
    = Ret [100; 0; 101]%Z.
Proof.
  intros st2 st3 E.
  assert (Ec : b_cache st3 = [100; 0; 101; 200; 0; 201]%Z /\ b_vars st3 = b_vars st2 /\ b_defs st3 = b_defs st2).
  { apply (f_equal (fun o => match o with Ret s => Some (b_cache s) | _ => None end)) in E as E1.
    apply (f_equal (fun o => match o with Ret s => Some (b_vars s) | _ => None end)) in E as E2.
    apply (f_equal (fun o => match o with Ret s => Some (b_defs s) | _ => None end)) in E as E3.
    split; [|split].
    - assert (Some (b_cache st3) = Some [100; 0; 101; 200; 0; 201]%Z) as [= ->]; [|done].
      rewrite <- E1. vm_compute. reflexivity.
    - assert (Some (b_vars st3) = Some (b_vars st2)) as [= ->]; [|done]. rewrite <- E2. vm_compute. reflexivity.
    - assert (Some (b_defs st3) = Some (b_defs st2)) as [= ->]; [|done]. rewrite <- E3. vm_compute. reflexivity. }
  destruct st3 as [d v i c s]. cbn [b_cache b_vars b_defs] in Ec. destruct Ec as (-> & -> & ->).
  split.
  - unfold shown, get_value. cbn [b_vars].
    assert (Ev : b_vars st2 !! lowered "solution_total_molality_Na" = Some ("solution_total_molality_Na", 1)) by (vm_compute; reflexivity).
    rewrite Ev. reflexivity.
  - unfold shown, get_value.
    set (st4 := generate _ _ _).
    assert (Ev : b_vars st4 !! lowered "solution_total_molality_Na" = Some ("solution_total_molality_Na", 0)).
    { unfold st4, generate, with_option. cbn [b_defs b_vars b_sel b_items b_cache].
      assert (process true (add_output_vars "SolutionTotalMolalities" "Na" (b_defs st2) AddOutputVars) = Yes) as ->
        by (vm_compute; reflexivity).
      assert (items (add_output_vars "SolutionTotalMolalities" "Na" (b_defs st2)) two_elements =
              [("solution_total_molality_Na", P_tot "Na")]) as -> by (vm_compute; reflexivity).
      cbn [record b_vars]. apply lookup_insert. }
    rewrite Ev. unfold fetch.
    assert (b_cache st4 = [100; 0; 101; 200; 0; 201]%Z) as ->.
    { unfold st4, generate, with_option. cbn [b_defs b_vars b_sel b_items b_cache].
      by destruct (process _ _). }
    cbn [obind]. assert (b_cache st4 = [100; 0; 101; 200; 0; 201]%Z) as ->.
    { unfold st4, generate, with_option. cbn [b_defs b_vars b_sel b_items b_cache].
      by destruct (process _ _). }
    reflexivity.
Qed.
Print Assumptions auto_old_array_refuted.

(** Without a table 333 - before the first run, or after a run with selected output off - reading
    any variable goes past the end of an empty array. *)
Theorem auto_no_table_refuted {D} (inactive : D) of_long zero nxyz bwd name (st : bmi D) w ws :
  b_cache st = [] -> z_tabs (b_sel st) = w :: ws -> w !! bmi_number = None -> 0 < nxyz ->
  is_Some (b_vars st !! lowered name) -> get_value inactive of_long zero nxyz bwd name st = UB.
Proof.
  intros Hc Ht Hw Hn [[n c] Hv]. unfold get_value. rewrite Hv. unfold fetch. rewrite Hc.
  unfold set_current at 1 2. rewrite decide_True by (unfold bmi_number; lia). cbn [snd z_cur z_tabs].
  rewrite Ht. unfold get_selected_output. rewrite decide_False by (unfold bmi_number; lia). rewrite Hw. cbn [obind snd b_cache].
  by destruct nxyz; [lia|].
Qed.
Print Assumptions auto_no_table_refuted.
Example auto_no_table_case :
  (shown "solution_total_molality_Na" st_found, shown "solution_total_molality_Na" (after_run false st_found)) = (UB, UB) /\
  bmi_ran false (dummy_of two_items) (fun _ => true) (run_of two_items) [[0; 1]] st_found (after_run false st_found).
Proof.
  split; [vm_compute; reflexivity|]. constructor. constructor; [done|]. constructor; [|constructor].
  exists true. vm_compute. reflexivity.
Qed.

(** Names that differ only in the case of letters are one variable, which shows the last of them. *)
Theorem auto_case_refuted :
  let l := Lists ["Na"; "Ca"; "CA"] [] [] [] [] [] [] [] [] [] in
  let st := after_run true (generate true l st_new) in
  wanted (b_defs st_new) l "solution_total_molality_CA" (P_tot "CA") /\
  shown "solution_total_molality_CA" st = Ret [100; 0; 101]%Z /\ (sols 0 (P_tot "CA"), sols 1 (P_tot "CA")) = (-1, -1)%Z.
Proof.
  intros l st. split; [|split; vm_compute; reflexivity].
  apply w_total. left. split; [vm_compute; reflexivity|]. right. right. left.
Qed.
Print Assumptions auto_case_refuted.

(** A component of two solid solutions has a variable only for the last of them. *)
Theorem auto_solid_solution_refuted :
  let l := Lists [] [] [] [] [] [] [] [] [("Calcite", "A"); ("Calcite", "B")] [] in
  let st := generate true l st_new in
  b_vars st !! "solid_solution_a_moles_calcite" = None /\
  b_vars st !! "solid_solution_b_moles_calcite" = Some ("solid_solution_B_moles_Calcite", 0).
Proof. split; vm_compute; reflexivity. Qed.
Print Assumptions auto_solid_solution_refuted.

(** FindComponents changes which selected output is chosen. *)
Theorem auto_choice_refuted {D} ok l (st : bmi D) : z_cur (b_sel (generate ok l st)) = bmi_number.
Proof.
  unfold generate. by destruct (process _ _).
Qed.
Print Assumptions auto_choice_refuted.
