(** Properties C32, C33, C34, C57, C58: the lists made by FindComponents. *)
From Coq Require Import String Sorting.Sorted QArith Qcanon Relations.
From stdpp Require Import prelude strings.
From Verif.Base Require Import Result.
From Verif.Names Require Import Model Spec Proofs.
From Verif.Find Require Import Model Spec Proofs.
Open Scope string_scope.
Open Scope list_scope.

(** ** C32 *)

(** The engine's list: every element with a primary aqueous master that some reactant holds,
    under its own name or that of a valence state. *)
Theorem engine_components (ms : nmap master) (ps : list part) :
  sorted (list_components ms ps) /\
  forall n, n ∈ list_components ms ps <->
    n <> "H" /\ n <> "O" /\ n <> "Charge" /\ nd_find n ms = Some (Master true true) /\
    exists p k, p ∈ ps /\ holds p k /\ (k = n \/ element k = n).
Proof. apply list_components_spec. Qed.
Print Assumptions engine_components.

Definition some_masters : nmap master :=
  [("C", Master true true); ("C(4)", Master true false); ("Ca", Master true true); ("Cl", Master true true);
   ("H", Master true true); ("O", Master true true); ("X", Master false true)].
Example engine_components_example :
  list_components some_masters
    [Totals ["Cl"; "Charge"; "H"; "O"]; Totals ["C(4)"]; Phases [(["Ca"; "O"], Q2Qc (1 # 2))]; Totals ["X"]]
  = ["C"; "Ca"; "Cl"].
Proof. vm_compute. reflexivity. Qed.

(** An element that occurs only in a gas or solid-solution component of zero amount is not
    listed. *)
Theorem zero_moles_refuted :
  list_components some_masters [Phases [(["Ca"; "O"], 0%Qc)]; Totals ["Cl"]] = ["Cl"].
Proof. vm_compute. reflexivity. Qed.
Print Assumptions zero_moles_refuted.

(** After any calls with one H2O choice: the fixed names, then, sorted and without repetition,
    everything the engine listed at any of the calls. *)
Theorem components_of_history {D SP} (one : D) (h2o : bool) (es : list (engine D SP)) :
  es <> [] ->
  exists rest,
    l_comps (find_all one h2o es no_lists) = (if h2o then ["H2O"; "H"; "O"; "Charge"] else ["H"; "O"; "Charge"]) ++ rest /\
    sorted rest /\ forall n, n ∈ rest <-> exists e, e ∈ es /\ n ∈ e_comps e.
Proof.
  intros H. destruct (find_all_comps one h2o es H) as (rest & E & Hs & Hm). exists rest.
  split; [|done]. rewrite E. by destruct h2o.
Qed.
Print Assumptions components_of_history.

(** With engines that list what their reactants hold, the whole list has no repetition, and the
    variable part holds exactly the elements some reactant held at some call. *)
Theorem components_complete {D SP} (one : D) (h2o : bool) (es : list (engine D SP))
    (ms : nmap master) (defs : list (list part)) :
  es <> [] -> map e_comps es = map (list_components ms) defs ->
  nd_find "H2O" ms = None ->
  NoDup (l_comps (find_all one h2o es no_lists)) /\
  forall n, n ∈ l_comps (find_all one h2o es no_lists) <->
    n = "H" \/ n = "O" \/ n = "Charge" \/ (h2o = true /\ n = "H2O") \/
    (nd_find n ms = Some (Master true true) /\
     exists ps p k, ps ∈ defs /\ p ∈ ps /\ holds p k /\ (k = n \/ element k = n)).
Proof.
  intros Hne He Hw. destruct (components_of_history one h2o es Hne) as (rest & E & Hs & Hm).
  assert (Hr : forall n, n ∈ rest <-> n <> "H" /\ n <> "O" /\ n <> "Charge" /\
    nd_find n ms = Some (Master true true) /\
    exists ps p k, ps ∈ defs /\ p ∈ ps /\ holds p k /\ (k = n \/ element k = n)).
  { intros n. rewrite Hm. split.
    - intros (e & H1 & H2). apply (elem_of_list_fmap_1 e_comps) in H1.
      change (e_comps <$> es) with (map e_comps es) in H1. rewrite He in H1.
      apply elem_of_list_fmap in H1 as (ps & E1 & Hps). rewrite E1 in H2.
      apply engine_components in H2 as (? & ? & ? & ? & p & k & ? & ? & ?). split_and!; try done.
      by exists ps, p, k.
    - intros (? & ? & ? & ? & ps & p & k & Hps & ? & ? & ?).
      assert (Hl : list_components ms ps ∈ map e_comps es).
      { rewrite He. apply elem_of_list_fmap. by exists ps. }
      apply elem_of_list_fmap in Hl as (e & E1 & Hin). exists e. split; [done|]. rewrite <- E1.
      apply engine_components. split_and!; try done. by exists p, k. }
  rewrite E. split.
  - apply NoDup_app. split_and!.
    + destruct h2o; apply (bool_decide_unpack _); vm_compute; exact I.
    + intros n Hn Hn'. apply Hr in Hn' as (N1 & N2 & N3 & N4 & _).
      assert (N5 : n <> "H2O") by (intros ->; congruence).
      destruct h2o; rewrite !elem_of_cons, elem_of_nil in Hn; tauto.
    + by apply sorted_nodup.
  - intros n. rewrite elem_of_app, Hr.
    assert (Hf : n ∈ (if h2o then ["H2O"; "H"; "O"; "Charge"] else ["H"; "O"; "Charge"]) <->
      n = "H" \/ n = "O" \/ n = "Charge" \/ (h2o = true /\ n = "H2O")).
    { destruct h2o; rewrite !elem_of_cons, elem_of_nil; [tauto|].
      split; [tauto|]. intros [?|[?|[?|[? _]]]]; [tauto..|done]. }
    rewrite Hf. clear Hf.
    destruct (decide (n = "H")), (decide (n = "O")), (decide (n = "Charge")); tauto.
Qed.
Print Assumptions components_complete.

(** A second call with the engine unchanged changes neither names nor formula weights, and the
    weights stand beside the names. *)
Theorem components_again {D SP} (one : D) (h2o : bool) (e : engine D SP) (l : lists D SP) :
  let l1 := (find_components one h2o e l).1 in
  let l2 := (find_components one h2o e l1).1 in
  l_comps l2 = l_comps l1 /\ l_gfw l2 = l_gfw l1 /\
  forall i n, l_comps l1 !! i = Some n ->
    l_gfw l1 !! i = Some (if decide (n = "Charge") then one else e_gfw e n).
Proof.
  intros l1 l2.
  destruct (find_components_comps one h2o e l) as [A1 A2].
  destruct (find_components_comps one h2o e l1) as [B1 B2].
  fold l1 in A1, A2. fold l2 in B1, B2.
  assert (X : new_components h2o (l_comps l1) (e_comps e) = l_comps l1).
  { rewrite A1. apply new_components_again. }
  split_and!; [congruence|congruence|].
  intros i n Hi. rewrite A2. rewrite A1 in Hi. change (@map) with (fun A B => @fmap list list_fmap A B).
  cbv beta. rewrite list_lookup_fmap, Hi. simpl. f_equal.
  destruct (String.eqb_spec n "Charge"); by case_decide.
Qed.
Print Assumptions components_again.

Definition demo (comps : list string) (surf : list (string * string)) (ss : list (string * string))
    (bad : string) : engine Z string :=
  Engine comps (fun n => Z.of_nat (String.length n)) (fun c => Some (c, c, ["Calcite"])) true surf ["X"]
    (fun _ => true) (fun t => if String.eqb t bad then None else Some [t ++ "OH"; t ++ "O-"]%string) (fun _ => true)
    (fun t => Some ["Ca" ++ t]%string) (fun _ => true) true ["Calcite"] ["CO2(g)"] ["Pyrite"] ss.
Example components_example :
  l_comps (find_all 1%Z true [demo ["Na"; "Ca"] [] [] "-"; demo ["Cl"; "Ca"] [] [] "-"] no_lists)
  = ["H2O"; "H"; "O"; "Charge"; "Ca"; "Cl"; "Na"].
Proof. vm_compute. reflexivity. Qed.

(** ** C33 *)

(** After a successful call the lists of equilibrium phases, gas components and kinetic reactions
    are sorted unions of the old list and the engine's. *)
Theorem name_lists_union {D SP} (one : D) (h2o : bool) (e : engine D SP) (l l' : lists D SP) n :
  find_components one h2o e l = (l', Some n) ->
  n = length (l_comps l') /\
  (sorted (l_eq l') /\ forall x, x ∈ l_eq l' <-> x ∈ l_eq l \/ x ∈ e_eq e) /\
  (sorted (l_gas l') /\ forall x, x ∈ l_gas l' <-> x ∈ l_gas l \/ x ∈ e_gas e) /\
  (sorted (l_kin l') /\ forall x, x ∈ l_kin l' <-> x ∈ l_kin l \/ x ∈ e_kin e).
Proof.
  intros H. apply find_result in H as (Hn & sl & xl & s & r & ph & _ & _ & _ & _ & _ & _ & _ & E1 & E2 & E3 & _).
  split; [done|]. rewrite E1, E2, E3.
  split_and!; try (apply sorted_inss, sorted_inss, sorted_nil);
    intros x; rewrite !elem_inss, elem_of_nil; tauto.
Qed.
Print Assumptions name_lists_union.

(** Exchange and surface species: each species the engine produces for a site or surface type met
    so far, beside its type; a surface type carries the surface name given to it last. *)
Theorem species_lists {D SP} (one : D) (h2o : bool) (e : engine D SP) (l l' : lists D SP) n :
  find_components one h2o e l = (l', Some n) ->
  (forall s t, (s, t) ∈ l_ex l' <->
     (t ∈ e_ex e \/ exists s', (s', t) ∈ l_ex l) /\ exists sp, e_ex_species e t = Some sp /\ s ∈ sp) /\
  (forall s t name, (s, t, name) ∈ l_surf l' <->
     last_for t (map (fun x => (x.1.2, x.2)) (l_surf l) ++ e_surf e) = Some name /\
     exists sp, e_surf_species e t = Some sp /\ s ∈ sp).
Proof.
  intros H. apply find_result in H as (_ & sl & xl & s & r & ph & _ & Hs & Hx & -> & -> & _).
  split.
  - intros x t. rewrite (ex_loop_elem e _ _ _ Hx). unfold ex_sites.
    rewrite !elem_inss, !elem_of_nil.
    assert (X : t ∈ map snd (l_ex l) <-> exists s', (s', t) ∈ l_ex l).
    { rewrite (elem_of_list_fmap snd). split.
      - intros ([s' t'] & -> & Hin). by exists s'.
      - intros (s' & Hin). by exists (s', t). }
    rewrite X. tauto.
  - intros x t name. rewrite (surf_loop_elem e _ _ _ _ Hs). rewrite elem_of_nil, surf_names_last.
    set (all := map (fun x : string * string * string => (x.1.2, x.2)) (l_surf l) ++ e_surf e).
    assert (X : t ∈ surf_types l e <-> t ∈ map fst all).
    { unfold surf_types, all. rewrite !elem_inss, elem_of_nil. rewrite map_app, elem_of_app, map_map.
      simpl. tauto. }
    rewrite X.
    assert (Y : t ∈ map fst all <-> is_Some (last_for t all)).
    { unfold last_for. clearbody all. clear.
      assert (G : forall acc, is_Some (fold_left (fun acc p => if decide (p.1 = t) then Some p.2 else acc) all acc)
        <-> t ∈ map fst all \/ is_Some (acc : option string)).
      { induction all as [|[a b] all IH]; intros acc; simpl; [rewrite elem_of_nil; tauto|].
        rewrite IH, elem_of_cons. case_decide as E; simpl in E.
        - subst. split; [tauto|]. intros _. right. by eexists.
        - split; [tauto|]. intros [[->|?]|?]; tauto. }
      rewrite G. split; [tauto|]. intros [?|[? ?]]; done. }
    rewrite Y. split.
    + intros [[]|([v Hv] & -> & Hsp)]. rewrite Hv. by split.
    + intros [-> Hsp]. right. split_and!; [by eexists|done|done].
Qed.
Print Assumptions species_lists.

Example lists_example :
  let r := find_components 1%Z false (demo ["Na"] [("Hfo_w", "Hfo")] [("Calcite", "Sol")] "-") no_lists in
  r.2 = Some 4%nat /\ l_ex r.1 = [("CaX", "X")] /\
  l_surf r.1 = [("Hfo_wOH", "Hfo_w", "Hfo"); ("Hfo_wO-", "Hfo_w", "Hfo")] /\ l_ss r.1 = [("Calcite", "Sol")].
Proof. vm_compute. done. Qed.

(** Solid solutions whose components are all new are listed with their own names. *)
Theorem solid_solutions_first {D SP} (one : D) (h2o : bool) (e : engine D SP) (l l' : lists D SP) n :
  find_components one h2o e l = (l', Some n) ->
  NoDup (map fst (l_ss l)) -> NoDup (map fst (e_ss e)) ->
  (forall c, c ∈ map fst (e_ss e) -> c ∉ map fst (l_ss l)) ->
  sorted (map fst (l_ss l')) /\
  forall c name, (c, name) ∈ l_ss l' <-> (c, name) ∈ l_ss l \/ (c, name) ∈ e_ss e.
Proof.
  intros H N1 N2 Hd.
  apply find_result in H as (_ & sl & xl & s & r & ph & _ & _ & _ & _ & _ & _ & _ & _ & _ & _ & ->).
  by apply find_ss_fresh.
Qed.
Print Assumptions solid_solutions_first.

(** A second call that meets a known component before a new one gives the new one the name of the
    known one's solid solution. *)
Theorem solid_solution_names_refuted :
  let e1 := demo [] [] [("Aragonite", "Carb")] "-" in
  let e2 := demo [] [] [("Aragonite", "Carb"); ("Barite", "Sulf")] "-" in
  l_ss (find_all 1%Z false [e1; e2] no_lists) = [("Aragonite", "Carb"); ("Barite", "Carb")].
Proof. vm_compute. reflexivity. Qed.
Print Assumptions solid_solution_names_refuted.

(** Every successful call appends its phases to the saturation-index list: twice the same call
    lists every phase twice. *)
Theorem si_names_grow {D SP} (one : D) (h2o : bool) (e : engine D SP) (l l1 l2 : lists D SP) n m :
  find_components one h2o e l = (l1, Some n) -> find_components one h2o e l1 = (l2, Some m) ->
  exists ph, l_si l1 = l_si l ++ ph /\ l_si l2 = l_si l ++ ph ++ ph.
Proof.
  intros H1 H2.
  destruct (find_components_comps one h2o e l) as [A1 _]. rewrite H1 in A1. simpl in A1.
  apply find_result in H1 as (_ & ? & ? & ? & ? & ph & P1 & _ & _ & _ & _ & _ & S1 & _).
  apply find_result in H2 as (_ & ? & ? & ? & ? & ph' & P2 & _ & _ & _ & _ & _ & S2 & _).
  assert (ph' = ph) as ->.
  { rewrite A1, new_components_again in P2. congruence. }
  exists ph. split; [done|]. by rewrite S2, S1, app_assoc.
Qed.
Print Assumptions si_names_grow.
Theorem si_names_refuted :
  let e := demo ["Ca"] [] [] "-" in
  l_si (find_all 1%Z false [e; e] no_lists) = ["Calcite"; "Calcite"].
Proof. vm_compute. reflexivity. Qed.
Print Assumptions si_names_refuted.

(** A surface type used by two surfaces is listed with one surface name only. *)
Theorem surface_names_refuted :
  let e := demo [] (list_surfaces [("Hfo_w", "Iron"); ("Hfo_w", "Clay")]) [] "-" in
  l_surf (find_all 1%Z false [e] no_lists) =
    [("Hfo_wOH", "Hfo_w", "Iron"); ("Hfo_wO-", "Hfo_w", "Iron")].
Proof. vm_compute. reflexivity. Qed.
Print Assumptions surface_names_refuted.

(** ** C34 *)

(** Choosing H2O after a call without it: the first of the variable components is forgotten
    unless the engine lists it again; all others stay. *)
Theorem h2o_on_later {D SP} (one : D) (e : engine D SP) (l : lists D SP) c rest :
  l_comps l = ["H"; "O"; "Charge"] ++ c :: rest ->
  exists rest', l_comps (find_components one true e l).1 = ["H2O"; "H"; "O"; "Charge"] ++ rest' /\
    sorted rest' /\ forall n, n ∈ rest' <-> n ∈ rest \/ n ∈ e_comps e.
Proof.
  intros E. destruct (find_components_comps one true e l) as [-> _].
  destruct (new_components_spec true (l_comps l) (e_comps e)) as (r & -> & Hs & Hm).
  exists r. split; [done|]. split; [done|]. intros n. rewrite Hm, E. simpl. tauto.
Qed.
Print Assumptions h2o_on_later.
Theorem h2o_on_refuted :
  l_comps (find_components 1%Z true (demo ["Na"] [] [] "-")
             (find_all 1%Z false [demo ["Ca"; "Cl"] [] [] "-"] no_lists)).1
  = ["H2O"; "H"; "O"; "Charge"; "Cl"; "Na"].
Proof. vm_compute. reflexivity. Qed.
Print Assumptions h2o_on_refuted.

(** Giving it up after a call with it always lists the charge twice. *)
Theorem h2o_off_refuted {D SP} (one : D) (e : engine D SP) (l : lists D SP) rest :
  l_comps l = ["H2O"; "H"; "O"; "Charge"] ++ rest ->
  exists rest', l_comps (find_components one false e l).1 = ["H"; "O"; "Charge"] ++ rest' /\ "Charge" ∈ rest'.
Proof.
  intros E. destruct (find_components_comps one false e l) as [-> _].
  destruct (new_components_spec false (l_comps l) (e_comps e)) as (r & -> & Hs & Hm).
  exists r. split; [done|]. apply Hm. right. rewrite E. simpl. by left.
Qed.
Print Assumptions h2o_off_refuted.
Example h2o_off_example :
  l_comps (find_components 1%Z false (demo ["Na"] [] [] "-")
             (find_all 1%Z true [demo ["Ca"; "Cl"] [] [] "-"] no_lists)).1
  = ["H"; "O"; "Charge"; "Ca"; "Charge"; "Cl"; "Na"].
Proof. vm_compute. reflexivity. Qed.

(** ** C57: the engine's solid-solution list *)

(** Solid solutions that share components, directly or through others, are merged: every component
    is listed once, all components of one solid solution carry one name, and the name is that of a
    solid solution connected to the component. *)
Theorem solid_solutions_merged (s : ssets) :
  Forall (fun x => sorted x.2) s ->
  NoDup (map fst (list_ss s)) /\
  (forall c, (exists name, (c, name) ∈ list_ss s) <-> exists x, x ∈ s /\ c ∈ x.2) /\
  (forall c d, linked s c d -> forall n m, (c, n) ∈ list_ss s -> (d, m) ∈ list_ss s -> n = m) /\
  (forall c name, (c, name) ∈ list_ss s ->
     exists x, x ∈ s /\ x.1 = name /\ x.2 <> [] /\ forall d, d ∈ x.2 -> linked s c d).
Proof.
  intros Hs. unfold list_ss. set (t := merge_all (length s) s).
  assert (Ha : apart t) by (apply merge_all_settled, filled_le).
  assert (Hm : merged s t) by (apply merged_all, merged_refl, Hs).
  clearbody t. destruct Hm as (M1 & M2 & M3 & M4 & M5).
  split; [by apply apart_nodup|].
  assert (Hc : forall c, (exists name, (c, name) ∈ write_ss t) <-> exists x, x ∈ s /\ c ∈ x.2).
  { intros c. split.
    - intros (name & (y & Hy & Hc & _)%elem_write). by apply (M3 y).
    - intros (x & Hx & Hc). destruct (M2 x Hx) as (y & Hy & Hsub). exists y.1. apply elem_write.
      exists y. split_and!; [done|by apply Hsub|done]. }
  split; [done|]. split.
  - assert (Ht : forall c d, together s c d -> exists y, y ∈ t /\ c ∈ y.2 /\ d ∈ y.2).
    { intros c d (x & Hx & H1 & H2). destruct (M2 x Hx) as (y & Hy & Hsub). exists y.
      split_and!; [done|by apply Hsub|by apply Hsub]. }
    assert (Hl : forall c d, linked s c d -> forall y, y ∈ t -> c ∈ y.2 -> d ∈ y.2).
    { intros c d H. induction H as [c d H|c|c d f H1 I1 H2 I2]; intros y Hy Hcy; [|done|by eauto].
      destruct (Ht c d H) as (y' & Hy' & H1 & H2). by rewrite (apart_elem t c y y' Ha Hy Hy' Hcy H1). }
    intros c d H n m (y & Hy & Hcy & ->)%elem_write (y' & Hy' & Hdy & ->)%elem_write.
    by rewrite (apart_elem t d y y' Ha Hy Hy' (Hl c d H y Hy Hcy) Hdy).
  - intros c name (y & Hy & Hcy & ->)%elem_write.
    destruct (M5 y c Hy Hcy) as (x & Hx & E & Hne & Hsub). exists x. split_and!; [done..|].
    intros d Hd. apply (M4 y); [done..|]. by apply Hsub.
Qed.
Print Assumptions solid_solutions_merged.
Example solid_solutions_merged_example :
  list_ss [("Carb", ["Aragonite"; "Calcite"]); ("Sulf", ["Barite"]); ("Mix", ["Calcite"; "Witherite"])] =
  [("Aragonite", "Carb"); ("Calcite", "Carb"); ("Witherite", "Carb"); ("Barite", "Sulf")].
Proof. vm_compute. reflexivity. Qed.

(** ** C58: a failing call *)

(** A failing call may already have replaced the component list and emptied the surface lists;
    what it forgot does not come back. *)
Theorem find_failure_refuted :
  let e1 := demo ["Ca"] [("Hfo_s", "Hfo"); ("Hfo_w", "Hfo")] [] "-" in
  let e2 := demo ["Na"] [] [] "Hfo_s" in
  let e3 := demo [] [] [] "-" in
  let l1 := (find_components 1%Z false e1 no_lists).1 in
  let l2 := (find_components 1%Z false e2 l1).1 in
  length (l_surf l1) = 4%nat /\
  (find_components 1%Z false e2 l1).2 = None /\
  l_comps l2 = ["H"; "O"; "Charge"; "Ca"; "Na"] /\ l_surf l2 = [] /\
  (find_components 1%Z false e3 l2).2 = Some 5%nat /\ l_surf (find_components 1%Z false e3 l2).1 = [].
Proof. vm_compute. done. Qed.
Print Assumptions find_failure_refuted.

(** A call that fails in its first test run leaves every list but the component names and weights
    alone. *)
Theorem find_failure_early {D SP} (one : D) (h2o : bool) (e : engine D SP) (l : lists D SP) :
  (forall c, e_probe e c = None) ->
  let r := find_components one h2o e l in
  r.2 = None /\ l_species r.1 = l_species l /\ l_redox r.1 = l_redox l /\ l_si r.1 = l_si l /\
  l_surf r.1 = l_surf l /\ l_ex r.1 = l_ex l /\ l_eq r.1 = l_eq l /\ l_gas r.1 = l_gas l /\
  l_kin r.1 = l_kin l /\ l_ss r.1 = l_ss l.
Proof. intros H r. subst r. unfold find_components, find_species. by rewrite H. Qed.
Print Assumptions find_failure_early.
Example find_failure_early_example :
  let e := Engine ["Ca"] (fun _ => 1%Z) (fun _ => None) true [] [] (fun _ => true) (fun _ => None) (fun _ => true)
    (fun _ => None) (fun _ => true) true [] [] [] [] : engine Z string in
  (find_components 1%Z false e no_lists).2 = None /\
  l_comps (find_components 1%Z false e no_lists).1 = ["H"; "O"; "Charge"; "Ca"].
Proof. vm_compute. done. Qed.

(** The call succeeds exactly when every run it makes does: the one with all the components, its
    removal, and, if any surface type or exchange site was met now or before, the second one with
    all the components, one run and one removal for each type and each site, and the last removal.
    The runs are given the components found. *)
Definition met_types {D SP} (e : engine D SP) (l : lists D SP) (t : string) : Prop :=
  t ∈ map fst (e_surf e) \/ exists s n, (s, t, n) ∈ l_surf l.
Definition met_sites {D SP} (e : engine D SP) (l : lists D SP) (t : string) : Prop :=
  t ∈ e_ex e \/ exists s, (s, t) ∈ l_ex l.
Definition given {D SP} (l : lists D SP) (n : string) : Prop :=
  n ∈ l_comps l /\ n <> "H" /\ n <> "O" /\ n <> "H2O" /\ n <> "Charge".
Theorem find_success {D SP} (one : D) (h2o : bool) (e : engine D SP) (l : lists D SP) :
  let r := find_components one h2o e l in
  exists cs, (forall n, n ∈ cs <-> given r.1 n) /\
  (r.2 <> None <->
   e_probe e cs <> None /\ e_unprobe e = true /\
   (forall t, met_types e l t -> e_surf_species e t <> None /\ e_surf_drop e t = true) /\
   (forall t, met_sites e l t -> e_ex_species e t <> None /\ e_ex_drop e t = true) /\
   ((exists t, met_types e l t \/ met_sites e l t) -> e_probe2 e cs = true /\ e_unprobe2 e = true)) /\
  forall k, r.2 = Some k -> k = length (l_comps r.1).
Proof.
  intros r. subst r. unfold find_components.
  set (l1 := find_comps one h2o e l).
  assert (l_surf l1 = l_surf l /\ l_ex l1 = l_ex l) as [Hs Hx] by done.
  clearbody l1. exists (plain_comps (l_comps l1)).
  assert (forall l' : lists D SP, l_comps l' = l_comps l1 -> forall n, n ∈ plain_comps (l_comps l1) <-> given l' n) as Hgiven.
  { intros l' E n. unfold given, plain_comps. rewrite E, elem_of_list_In, filter_In, <- elem_of_list_In.
    rewrite !andb_true_iff, !negb_true_iff, !String.eqb_neq. tauto. }
  unfold find_species. destruct (e_probe e (plain_comps (l_comps l1))) as [[[sp rd] ph]|] eqn:Ep; simpl.
  2: { split; [by apply Hgiven|]. split; [|done]. split; [done|]. intros [? _]. congruence. }
  set (l2 := set_species _ _ _ _).
  assert (l_surf l2 = l_surf l /\ l_ex l2 = l_ex l /\ l_comps l2 = l_comps l1) as (Hs2 & Hx2 & Hc2) by done.
  clearbody l2. destruct (e_unprobe e) eqn:Eu; simpl.
  2: { split; [by apply Hgiven|]. split; [|done]. split; [done|]. intros (_ & ? & _). congruence. }
  assert (forall t, t ∈ surf_types l2 e <-> met_types e l t) as Ht.
  { intros t. unfold surf_types, met_types. rewrite !elem_inss, elem_of_nil, Hs2.
    change (map (fun t => t.1.2) (l_surf l)) with ((fun t : string * string * string => t.1.2) <$> l_surf l).
    rewrite elem_of_list_fmap. split.
    - intros [H|[([[a b] c] & -> & H)|[]]]; [by left|]. right. eauto.
    - intros [H|(a & c & H)]; [by left|]. right. left. by exists (a, t, c). }
  assert (forall t, t ∈ ex_sites l2 e <-> met_sites e l t) as Hm.
  { intros t. unfold ex_sites, met_sites. rewrite !elem_inss, elem_of_nil, Hx2.
    change (map snd (l_ex l)) with (snd <$> l_ex l).
    rewrite elem_of_list_fmap. split.
    - intros [H|[([a b] & -> & H)|[]]]; [by left|]. right. eauto.
    - intros [H|(a & H)]; [by left|]. right. left. by exists (a, t). }
  unfold find_others. set (some := _ || _).
  assert (some = true <-> exists t, met_types e l t \/ met_sites e l t) as Hsome.
  { subst some. destruct (surf_types l2 e) as [|t ts] eqn:E1; simpl.
    - destruct (ex_sites l2 e) as [|t ts] eqn:E2; simpl.
      + split; [done|]. intros [t [H|H]]; [apply Ht in H|apply Hm in H]; by apply elem_of_nil in H.
      + split; [|done]. intros _. exists t. right. apply Hm. by left.
    - split; [|done]. intros _. exists t. left. apply Ht. by left. }
  clearbody some. rewrite <- Hc2 in Ep |- *. rewrite <- Hc2 in Hgiven.
  destruct (some && negb (e_probe2 e (plain_comps (l_comps l2)))) eqn:Eb; simpl.
  { apply andb_prop in Eb as [Eb1 Eb2]. apply negb_true_iff in Eb2. split; [by apply Hgiven|]. split; [|done].
    split; [done|]. intros (_ & _ & _ & _ & H). apply Hsome in Eb1. apply H in Eb1 as [? _]. congruence. }
  assert (some = true -> e_probe2 e (plain_comps (l_comps l2)) = true) as Hp2.
  { intros ->. simpl in Eb. by apply negb_false_iff in Eb. }
  pose proof (surf_loop_ok e (surf_names l2 e) (surf_types l2 e) []) as S1.
  destruct (surf_loop e (surf_names l2 e) (surf_types l2 e) []) as [sl sok]. simpl in *.
  destruct sok; simpl.
  2: { split; [by apply Hgiven|]. split; [|done]. split; [done|]. intros (_ & _ & H & _).
       exfalso. assert (false = true) as F; [|done]. apply S1. intros t Hin. apply H, Ht, Hin. }
  pose proof (ex_loop_ok e (ex_sites l2 e) []) as S2.
  destruct (ex_loop e (ex_sites l2 e) []) as [xl xok]. simpl in *.
  destruct xok; simpl.
  2: { split; [by apply Hgiven|]. split; [|done]. split; [done|]. intros (_ & _ & _ & H & _).
       exfalso. assert (false = true) as F; [|done]. apply S2. intros t Hin. apply H, Hm, Hin. }
  destruct (some && negb (e_unprobe2 e)) eqn:Ec; simpl.
  { apply andb_prop in Ec as [Ec1 Ec2]. apply negb_true_iff in Ec2. split; [by apply Hgiven|]. split; [|done].
    split; [done|]. intros (_ & _ & _ & _ & H). apply Hsome in Ec1. apply H in Ec1 as [_ ?]. congruence. }
  split; [by apply Hgiven|]. split.
  - split; [|done]. intros _. split; [done|]. split; [done|].
    split; [intros t H; by apply S1, Ht|]. split; [intros t H; by apply S2, Hm|].
    intros H. apply Hsome in H. split; [by apply Hp2|]. rewrite H in Ec. simpl in Ec. by apply negb_false_iff in Ec.
  - intros k E. by injection E as <-.
Qed.
Print Assumptions find_success.
(** A run for one of two surface types fails to be removed: the call fails. *)
Example find_success_example :
  let e := demo ["Ca"] [("Hfo_s", "Hfo"); ("Hfo_w", "Hfo")] [] "-" in
  let e' := Engine (e_comps e) (e_gfw e) (e_probe e) (e_unprobe e) (e_surf e) (e_ex e) (e_probe2 e)
    (e_surf_species e) (fun t => negb (String.eqb t "Hfo_s")) (e_ex_species e) (e_ex_drop e) (e_unprobe2 e)
    (e_eq e) (e_gas e) (e_kin e) (e_ss e) in
  (find_components 1%Z false e no_lists).2 = Some 4%nat /\ (find_components 1%Z false e' no_lists).2 = None /\
  met_types e' no_lists "Hfo_s".
Proof. split; [|split]; [vm_compute; reflexivity..|]. left. vm_compute. apply elem_of_cons. by left. Qed.
