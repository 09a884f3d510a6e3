(** Theorems about writing reactants as SOLUTION_RAW, EXCHANGE_RAW, ... and reading the lines back.

    [rnd d] is the double that is read from what is printed for [d], [lit s] the one of the constant [s]
    in the program; both are arbitrary. *)
From Coq Require Import Ascii String Sorting.Sorted.
From stdpp Require Import prelude strings gmap.
From Verif.Names Require Import Spec Proofs.
From Verif.Transfer Require Import Model.
From Verif.Raw Require Import Model Spec Proofs.

(** ** C83: one reactant *)

Theorem raw_solution {D} (lit : string -> D) (rnd : D -> D) x : fits_solution keywords solution_options x ->
  exists y, read_solution lit (so_n x) (so_text x) (solution_lines rnd x) = (y, 0) /\ restored_solution rnd x y.
Proof. apply solution_read. Qed.
Theorem raw_exchange {D} (lit : string -> D) (rnd : D -> D) x : fits_exchange keywords exch_comp_options x ->
  exists y, read_exchange lit (ex_n x) (ex_text x) (exchange_lines rnd x) = (y, 0) /\ restored_exchange rnd x y.
Proof. apply exchange_read. Qed.
Theorem raw_gas_phase {D} (lit : string -> D) (rnd : D -> D) x : fits_gas_phase keywords gas_phase_options x ->
  exists y, read_gas_phase lit (gp_n x) (gp_text x) (gas_phase_lines rnd x) = (y, 0) /\
    restored_gas_phase lit rnd x y.
Proof. apply gas_phase_read. Qed.
Theorem raw_kinetics {D} (lit : string -> D) (rnd : D -> D) x :
  fits_kinetics keywords kin_comp_options kinetics_options x ->
  exists y, read_kinetics lit (ki_n x) (ki_text x) (kinetics_lines rnd x) = (y, 0) /\ restored_kinetics rnd x y.
Proof. apply kinetics_read. Qed.
Theorem raw_pp {D} (lit : string -> D) (rnd : D -> D) x : fits_pp keywords pp_comp_options pp_options x ->
  exists y, read_pp lit (pp_n x) (pp_text x) (pp_lines rnd x) = (y, 0) /\ restored_pp rnd x y.
Proof. apply pp_read. Qed.
Theorem raw_ssa {D} (lit : string -> D) (rnd : D -> D) x : fits_ssa keywords solid_options ssa_options x ->
  exists y, read_ssa lit (sa_n x) (sa_text x) (ssa_lines rnd x) = (y, 0) /\ restored_ssa rnd x y.
Proof. apply ssa_read. Qed.
Theorem raw_surface {D} (dcmp : D -> D -> comparison) (lit : string -> D) (rnd : D -> D) x :
  fits_surface dcmp rnd keywords surf_comp_options surf_charge_options x ->
  exists y, read_surface dcmp lit (su_n x) (su_text x) (surface_lines rnd x) = (y, 0) /\ restored_surface rnd x y.
Proof. apply surface_read. Qed.
Theorem raw_mixture {D} (rnd : D -> D) x : fits_mixture x ->
  exists y, read_mixture (mi_n x) (mi_text x) (mixture_lines rnd x) = (y, 0) /\ restored_mixture rnd x y.
Proof. apply mixture_read. Qed.
Theorem raw_reaction {D} (rnd : D -> D) x : fits_reaction keywords reaction_options x ->
  exists y, read_reaction (rx_n x) (rx_text x) (reaction_lines rnd x) = (y, 0) /\ restored_reaction rnd x y.
Proof. apply reaction_read. Qed.
Theorem raw_temperature {D} (rnd : D -> D) x :
  exists y, read_steps temperature_cls (st_n x) (st_text x) (temperature_lines rnd x) = (y, 0) /\
    restored_temperature rnd x y.
Proof. apply temperature_read. Qed.
Theorem raw_pressure {D} (rnd : D -> D) x :
  exists y, read_steps pressure_cls (st_n x) (st_text x) (pressure_lines rnd x) = (y, 0) /\ restored_pressure rnd x y.
Proof. apply pressure_read. Qed.
Print Assumptions raw_solution.
Print Assumptions raw_exchange.
Print Assumptions raw_gas_phase.
Print Assumptions raw_kinetics.
Print Assumptions raw_pp.
Print Assumptions raw_ssa.
Print Assumptions raw_surface.
Print Assumptions raw_mixture.
Print Assumptions raw_reaction.
Print Assumptions raw_temperature.
Print Assumptions raw_pressure.

(** A file with a reactant of each kind that meets the hypotheses. *)
Section Case.
Local Open Scope Z_scope.
Local Open Scope string_scope.

Definition case_lit : string -> Z := fun _ => 0.
Definition case_solution (totals : list (string * Z)) iso := Solution 7 9 " sea water" true 1 2 3 4 5 6 7 8 9 10 11
  12 13 14 15 16 totals [("H(1)", -7)] [] iso false [(2, 21); (5, 22)] [] [(2, 23)].
Definition case_exch (f : string) (totals : list (string * Z)) := ExchComp f totals 1 2 "" 4 "" 5.
Definition case_exchange comps (totals : list (string * Z)) := Exchange 7 7 "soil" comps true true false 3 totals.
Definition case_gas := GasPhase 7 7 "air" GP_VOLUME 1 2 [GasComp "O2(g)" 3 4 5 6 7 8; GasComp "N2(g)" 13 14 15 16 17 18]
  true false (-1) 25 9 10 false [("N", 26); ("O", 6)].
Definition case_kinetics := Kinetics 7 7 "decay" [KinComp "Pyrite" [("FeS2", 1)] 2 3 4 [5; 6] [] 7 8 [("Fe", 9)]]
  [10; 11] 2 true 1 3 500 false 100 5 [("Fe", 12)].
Definition case_phase (totals : list (string * Z)) := PPComp "Quartz" "" 1 2 3 4 5 false true true totals.
Definition case_pp totals := PP 7 7 "rock" true [("Quartz", case_phase totals)] [("O", 6); ("Si", 3)] [].
Definition case_solid (totals : list (string * Z)) :=
  Solid "CaSrCO3" 1 2 [SSComp "Aragonite" 1 2 3 4 5 6 7 8 9 10; SSComp "Strontianite" 11 12 13 14 15 16 17 18 19 20]
    3 4 false true 298 5 6 1 [7; 8; 9; 10] 11 12 true totals.
Definition case_ssa totals := SSA 7 7 "" [("CaSrCO3", case_solid totals)] false [("Ca", 4)].
Definition case_surface_of totals := Surface 7 7 "clay"
  [SurfComp "Hfo_wOH" 0 2 [("Hfo_w", 2); ("O", 2)] 3 "Hfo" 4 "" 5 "" 6 "Hfo_w";
   SurfComp "Hfo_sOH" 0 2 [("Hfo_s", 2); ("O", 2)] 3 "Hfo" 4 "Goethite" 5 "" 6 "Hfo_s"]
  [SurfCharge "Hfo" 600 1 2 3 4 5 6 7 8 [("Na", 9)] 10 11 12 13 [(-1, SurfDL 14 15 16); (1, SurfDL 17 18 19)] []
     [(4, 20)]]
  true false 2 1 0 false 3 4 5 false 6 true false totals true 2.
Definition case_surface := case_surface_of [].
Definition case_mix := Mixture 7 7 "blend" [(-2, 1); (5, 3)].
Definition case_reaction_in units := Reaction 7 7 "dosing" units [("CaCl2", 1); ("NaCl", 2)] [("Ca", 1); ("Cl", 4); ("Na", 2)]
  [1; 2; 3; 4; 5; 6; 7] 7 false.
Definition case_reaction := case_reaction_in "millimol".
Definition case_steps := Steps 7 7 " heating" [20; 30; 40; 50; 60; 70] 3 false.
Definition case_file : list (entity (D := Z)) :=
  [ESolution (case_solution [("Ca", 1); ("Fe(2)", 2); ("Na", 3)] []); EExchange (case_exchange [case_exch "NaX" [("Na", 1); ("X", 1)]; case_exch "CaX2" [("Ca", 1); ("X", 2)]] []);
   EGas case_gas; EKinetics case_kinetics; EPP (case_pp [("O", 6)]); ESS (case_ssa [("Ca", 5); ("Sr", 6)]);
   ESurface case_surface; EMix case_mix; EReaction case_reaction; ETemp case_steps; EPress case_steps].


Local Instance space_dec c : Decision (space c).
Proof. unfold space. apply _. Defined.
Local Instance no_space_dec s : Decision (no_space s).
Proof. induction s; cbn [no_space]; apply _. Defined.
Local Instance word_dec s : Decision (word s).
Proof. unfold word. apply _. Defined.
Local Instance like_option_dec s : Decision (like_option s).
Proof. destruct s as [|d [|c s]]; cbn [like_option]; apply _. Defined.
Local Instance plain_name_dec keys opts s : Decision (plain_name keys opts s).
Proof. unfold plain_name. apply _. Defined.
Lemma plain_check {V} keys opts (l : list (string * V)) : ordered l -> Forall (fun p => plain_name keys opts p.1) l ->
  plain_names keys opts l.
Proof. intros H1 H2. split; [done|]. intros n v H. rewrite Forall_forall in H2. by apply (H2 (n, v)). Qed.
Ltac cpt := apply (bool_decide_unpack _); vm_compute; exact Logic.I.
Ltac plain := apply plain_check; [apply ordb_ordered; reflexivity|cpt].
Ltac small := first [left; reflexivity|cpt|right; cpt].
Ltac inc := unfold rising; repeat constructor; done.

Example raw_case : NoDup (place <$> case_file) /\ Forall (fits Z.compare id keywords) case_file.
Proof.
  split; [cpt|]. unfold case_file. repeat apply Forall_cons_2; [..|by apply Forall_nil]; cbn [fits].
  - split; [plain|]. split; [plain|]. split; [plain|]. split; [|split; [done|]].
    + intros n m [v Hn] [w Hm] Hv.
      repeat (apply elem_of_cons in Hn as [[= -> _]|Hn]; [|]); try (by apply elem_of_nil in Hn);
        repeat (apply elem_of_cons in Hm as [[= -> _]|Hm]; [|]); try (by apply elem_of_nil in Hm);
        try (by exfalso; apply Hv); by vm_compute.
    + split; [inc|split; inc].
  - split; [|split; [cpt|split; [done|]]].
    + repeat apply Forall_cons_2; [..|by apply Forall_nil]; (split; [cpt|split; [plain|split; small]]).
    + intros i j a b Hij Ha Hb. destruct i as [|[|i]], j as [|[|j]]; try lia; try done.
      injection Ha as <-. injection Hb as <-. intros [v H].
      repeat (apply elem_of_cons in H as [H|H]; [discriminate H|]). by apply elem_of_nil in H.
  - split; [cpt|]. split; [cpt|plain].
  - split; [|split; [cpt|plain]]. repeat apply Forall_cons_2; [|by apply Forall_nil]. split; [cpt|plain].
  - split; [apply ordb_ordered; reflexivity|]. split; [|split; [cpt|split; plain]].
    repeat apply Forall_cons_2; [|by apply Forall_nil]. split; [done|]. split; [cpt|split; [small|plain]].
  - split; [apply ordb_ordered; reflexivity|]. split; [|plain].
    repeat apply Forall_cons_2; [|by apply Forall_nil]. split; [done|]. split; [cpt|].
    split; [cpt|split; [cpt|split; [done|plain]]].
  - split; [|split; [cpt|split; [|split; [cpt|done]]]].
    + repeat apply Forall_cons_2; [..|by apply Forall_nil];
        (split; [cpt|split; [plain|split; [cpt|split; [cpt|split; small]]]]).
    + repeat apply Forall_cons_2; [|by apply Forall_nil]. split; [cpt|split; [plain|split; [inc|inc]]].
  - inc.
  - split; [cpt|split; plain].
  - done.
  - done.
Qed.

(** Of an element named like an option, no amount is read; the member of that name gets it instead, and
    keeps it if its own line came before: lanthanum on an exchanger is lost, the silicon of a phase becomes
    its target saturation index, and the phosphorus of a solid solution replaces its parameters, with
    errors. *)
Theorem raw_names_refuted :
  (exists y, read_exchange case_lit 7 "" (exchange_lines id (case_exchange [case_exch "X" [("La", 3); ("X", 9)]] []))
     = (y, 0%nat) /\ ec_totals <$> ex_comps y = [[("X", 9)]]) /\
  (exists y c, read_pp case_lit 7 "" (pp_lines id (case_pp [("O", 6); ("Si", 3)])) = (y, 0%nat) /\
     pp_comps y = [("Quartz", c)] /\ pc_si (case_phase []) = 1 /\ pc_si c = 3 /\ pc_totals c = [("O", 6)]) /\
  (exists y c, read_ssa case_lit 7 "" (ssa_lines id (case_ssa [("P", 3)])) = (y, 3%nat) /\
     sa_list y = [("CaSrCO3", c)] /\ ss_p (case_solid []) = [7; 8; 9; 10] /\ ss_p c = [3; 0; 0; 0] /\
     ss_totals c = []).
Proof.
  split; [|split].
  - eexists. split; [vm_compute; reflexivity|reflexivity].
  - eexists _, _. split; [vm_compute; reflexivity|]. by vm_compute.
  - eexists _, _. split; [vm_compute; reflexivity|]. by vm_compute.
Qed.
(** An element is lost whose name is that of an element with redox states, without its last letter. *)
Theorem raw_redox_refuted : exists y,
  read_solution case_lit 7 "" (solution_lines id (case_solution [("F", 1); ("Fe(2)", 2)] [])) = (y, 0%nat) /\
  so_totals y = [("Fe(2)", 2)].
Proof. eexists. split; [vm_compute; reflexivity|reflexivity]. Qed.
(** Isotopes cannot be read. *)
Theorem raw_isotopes_refuted : exists y e,
  read_solution case_lit 7 "" (solution_lines id (case_solution [("C(4)", 1)]
    [("13C", Isotope 13 "C" "13C" 1 2 3 true 4 5)])) = (y, S e).
Proof. eexists _, _. vm_compute. reflexivity. Qed.
(** An exchange component is lost if it is named after an element of one before it; the totals of an
    exchanger or a surface cannot be read. *)
Theorem raw_exchange_refuted :
  (exists y, read_exchange case_lit 7 "" (exchange_lines id
     (case_exchange [case_exch "CaX2" [("Ca", 1); ("X", 2)]; case_exch "X" [("X", 5)]] [])) = (y, 0%nat) /\
     ec_formula <$> ex_comps y = ["CaX2"]) /\
  (exists y e, read_exchange case_lit 7 "" (exchange_lines id
     (case_exchange [case_exch "CaX2" [("Ca", 1); ("X", 2)]] [("Ca", 1)])) = (y, S e) /\ ex_totals y = []) /\
  (exists y e, read_surface Z.compare case_lit 7 "" (surface_lines id (case_surface_of [("O", 4)]))
     = (y, S e) /\ su_totals y = []).
Proof.
  split; [|split].
  - eexists. split; [vm_compute; reflexivity|reflexivity].
  - eexists _, _. split; [vm_compute; reflexivity|reflexivity].
  - eexists _, _. split; [vm_compute; reflexivity|reflexivity].
Qed.
(** A reaction without units cannot be read, of units of two words the second is lost; the count of
    temperatures that are given one by one is not kept. *)
Theorem raw_reaction_refuted :
  (exists y e, read_reaction 7 "" (reaction_lines id (case_reaction_in "")) = (y, S e)) /\
  (exists y, read_reaction 7 "" (reaction_lines id (case_reaction_in "milli mol")) = (y, 0%nat) /\ rx_units y = "milli") /\
  (exists y, read_steps temperature_cls 7 "" (temperature_lines id case_steps) = (y, 0%nat) /\
     st_count case_steps = 3 /\ st_count y = 6).
Proof.
  split; [|split].
  - eexists _, _. vm_compute. reflexivity.
  - eexists. split; [vm_compute; reflexivity|reflexivity].
  - eexists. split; [vm_compute; reflexivity|done].
Qed.
Print Assumptions raw_reaction_refuted.
Print Assumptions raw_names_refuted.
Print Assumptions raw_redox_refuted.
Print Assumptions raw_isotopes_refuted.
Print Assumptions raw_exchange_refuted.
End Case.

(** ** C84: whole files *)

(** Every reactant is read back and stored under its number; all others, of any number, stay as they are,
    and there is no error. *)
Theorem raw_file {D} (dcmp : D -> D -> comparison) (lit : string -> D) (rnd : D -> D) es r :
  NoDup (place <$> es) -> Forall (fits dcmp rnd keywords) es ->
  exists r', read_file dcmp lit (dump rnd es) (r, 0) = (r', 0) /\
  (forall e, e ∈ es -> exists e', restored lit rnd e e' /\ stored r' (place e).2 e') /\
  (forall n e', ((place e').1, n) ∉ (place <$> es) -> stored r' n e' <-> stored r n e').
Proof. apply file_read. Qed.
Print Assumptions raw_file.

(** Writing what has been read and reading it again gives the same, if the doubles do. *)
Theorem raw_settles {D} (lit : string -> D) (rnd : D -> D) e e1 e2 :
  (forall d, rnd (rnd d) = rnd d) -> restored lit rnd e e1 -> restored lit rnd e1 e2 -> e2 = e1.
Proof. intros Hr H1 H2. by apply (restored_twice lit rnd Hr e). Qed.
Print Assumptions raw_settles.
Example raw_settles_case : exists e e1,
  restored case_lit id e e1 /\ restored case_lit id e1 e1 /\ e1 <> e.
Proof.
  assert (stripped "rock" "rock") as H by (exists EmptyString; split; [done|split; [|by intros [] ?]];
    apply (bool_decide_unpack _); vm_compute; exact Logic.I).
  exists (EPP (case_pp [("O"%string, 6%Z)])).
  eexists (EPP (PP _ _ _ _ _ _ _)). split; [|split].
  - exists "rock"%string. split; [exact H|]. reflexivity.
  - exists "rock"%string. split; [exact H|]. reflexivity.
  - discriminate.
Qed.
