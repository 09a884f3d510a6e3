From Coq Require Import Ascii String Sorting.Sorted.
From stdpp Require Import prelude strings gmap.
From Verif.Base Require Import Result.
From Verif.Names Require Import Model Spec Proofs.
From Verif.Partition Require Import Spec EndCellsProofs.
From Verif.Transfer Require Import Model Spec Proofs.

(** * C73 Sending cells to another process *)

(** For every list of cells with good reactants, whatever the receiver holds: decoding succeeds, the
    receiver has the reactants of the seven kinds as they arrive and keeps what it had otherwise, the
    sender is left without the cells. REACTION_TEMPERATURE and REACTION_PRESSURE of the cells, and
    what else they have, are deleted and do not arrive. *)
Theorem transfer_cells {D} (dcmp : D -> D -> comparison) d1 ks (from into : reactants (D := D)) :
  (forall a b, dcmp a b = Lt -> dcmp b a = Gt) -> good_cells dcmp ks from ->
  exists from' into', send_cells dcmp d1 ks from into = Ret (from', into') /\
    (received (arrived_solution d1) ks (ph_sol from) (ph_sol into) (ph_sol into') /\
     received arrived_exchange ks (ph_ex from) (ph_ex into) (ph_ex into') /\
     received arrived_gas_phase ks (ph_gas from) (ph_gas into) (ph_gas into') /\
     received arrived_kinetics ks (ph_kin from) (ph_kin into) (ph_kin into') /\
     received arrived_pp ks (ph_pp from) (ph_pp into) (ph_pp into') /\
     received arrived_ssa ks (ph_ss from) (ph_ss into) (ph_ss into') /\
     received arrived_surface ks (ph_surf from) (ph_surf into) (ph_surf into')) /\
    (released ks (ph_sol from) (ph_sol from') /\ released ks (ph_ex from) (ph_ex from') /\
     released ks (ph_gas from) (ph_gas from') /\ released ks (ph_kin from) (ph_kin from') /\
     released ks (ph_pp from) (ph_pp from') /\ released ks (ph_ss from) (ph_ss from') /\
     released ks (ph_surf from) (ph_surf from')) /\
    (released ks (ph_temp from) (ph_temp from') /\ ph_temp into' = ph_temp into /\
     released ks (ph_press from) (ph_press from') /\ ph_press into' = ph_press into /\
     released ks (ph_mix from) (ph_mix from') /\ ph_mix into' = ph_mix into /\
     released ks (ph_react from) (ph_react from') /\ ph_react into' = ph_react into).
Proof.
  intros Hd Hg. exists (delete_cells ks from), (recv_cells d1 from ks into).
  split; [by apply send_spec|]. destruct from, into.
  split_and!; try apply recv_all_spec; try apply drop_cells_spec; try done.
Qed.
Print Assumptions transfer_cells.

(** Exactly which reactants arrive unchanged. *)
Theorem transfer_exact {D} (d1 : D) :
  (forall x, arrived_solution d1 x = x <->
     so_end x = so_n x /\ so_text x = "  "%string /\ so_visc0 x = d1 /\ so_initial x = false) /\
  (forall x : exchange (D := D), arrived_exchange x = x <-> ex_end x = ex_n x /\ ex_text x = " "%string) /\
  (forall x : gas_phase (D := D), arrived_gas_phase x = x <->
     gp_end x = gp_n x /\ gp_text x = " "%string /\ gp_kind x <> GP_UNKNOWN) /\
  (forall x : kinetics (D := D), arrived_kinetics x = x <->
     ki_end x = ki_n x /\ ki_text x = " "%string /\ forall c, c ∈ ki_comps x -> kc_c c = []) /\
  (forall x : pp_assemblage (D := D), arrived_pp x = x <-> pp_end x = pp_n x /\ pp_text x = " "%string) /\
  (forall x : ss_assemblage (D := D), arrived_ssa x = x <-> sa_end x = sa_n x /\ sa_text x = " "%string) /\
  (forall x : surface (D := D), arrived_surface x = x <->
     su_end x = su_n x /\ su_text x = " "%string /\ su_calc x = false /\
     forall c, c ∈ su_charges x -> uh_mcd c = []).
Proof.
  assert (Hm : forall {A} (f : A -> A) l, map f l = l <-> forall c, c ∈ l -> f c = c).
  { intros A f l. induction l as [|c l IH]; cbn [map].
    - split; [by intros _ c ?%elem_of_nil|done].
    - split.
      + intros [= H1 H2] c' Hc'. apply elem_of_cons in Hc' as [-> | Hc']; [done|]. by apply IH.
      + intros H. rewrite H by by left. f_equal. apply IH. intros c' Hc'. apply H. by right. }
  assert (Hk : forall c : kin_comp (D := D), arrived_kin_comp c = c <-> kc_c c = []).
  { intros []. unfold arrived_kin_comp. cbn. split; [by intros [= ->]|by intros ->]. }
  assert (Hs : forall c : surf_charge (D := D), arrived_surf_charge c = c <-> uh_mcd c = []).
  { intros []. unfold arrived_surf_charge. cbn. split; [by intros [= ->]|by intros ->]. }
  split_and!; intros [].
  - unfold arrived_solution. cbn. split; [by intros [= -> -> -> ->]|by intros (-> & -> & -> & ->)].
  - unfold arrived_exchange. cbn. split; [by intros [= -> ->]|by intros (-> & ->)].
  - unfold arrived_gas_phase. cbn. split.
    + intros [= -> -> Hx]. split_and!; [done..|]. intros ->. done.
    + intros (-> & -> & Hx). by destruct gp_kind.
  - unfold arrived_kinetics. cbn. split.
    + intros [= -> -> Hx]. rewrite Hm in Hx. split_and!; [done..|]. intros c Hc. by apply Hk, Hx.
    + intros (-> & -> & Hx). f_equal. apply Hm. intros c Hc. by apply Hk, Hx.
  - unfold arrived_pp. cbn. split; [by intros [= -> ->]|by intros (-> & ->)].
  - unfold arrived_ssa. cbn. split; [by intros [= -> ->]|by intros (-> & ->)].
  - unfold arrived_surface. cbn. split.
    + intros [= -> -> Hx ->]. rewrite Hm in Hx. split_and!; [done..|]. intros c Hc. by apply Hs, Hx.
    + intros (-> & -> & -> & Hx). f_equal. apply Hm. intros c Hc. by apply Hs, Hx.
Qed.
Print Assumptions transfer_exact.

(** What has arrived once can be sent on and then arrives unchanged: moving a cell any number of
    times does what moving it once does. *)
Theorem transfer_again {D} (dcmp : D -> D -> comparison) (d1 : D) :
  (forall x, good_solution x -> good_solution (arrived_solution d1 x) /\
     arrived_solution d1 (arrived_solution d1 x) = arrived_solution d1 x) /\
  (forall x : exchange (D := D), good_exchange x -> good_exchange (arrived_exchange x) /\
     arrived_exchange (arrived_exchange x) = arrived_exchange x) /\
  (forall x : gas_phase (D := D), good_gas_phase x -> good_gas_phase (arrived_gas_phase x) /\
     arrived_gas_phase (arrived_gas_phase x) = arrived_gas_phase x) /\
  (forall x : kinetics (D := D), good_kinetics x -> good_kinetics (arrived_kinetics x) /\
     arrived_kinetics (arrived_kinetics x) = arrived_kinetics x) /\
  (forall x : pp_assemblage (D := D), good_pp x -> good_pp (arrived_pp x) /\
     arrived_pp (arrived_pp x) = arrived_pp x) /\
  (forall x : ss_assemblage (D := D), good_ssa x -> good_ssa (arrived_ssa x) /\
     arrived_ssa (arrived_ssa x) = arrived_ssa x) /\
  (forall x : surface (D := D), good_surface dcmp x -> good_surface dcmp (arrived_surface x) /\
     arrived_surface (arrived_surface x) = arrived_surface x).
Proof.
  destruct (transfer_exact d1) as (E1 & E2 & E3 & E4 & E5 & E6 & E7).
  split_and!; intros x Hx; split; try done.
  - apply E3. cbn. split_and!; [done..|]. by destruct (gp_kind x).
  - destruct Hx as [H1 H2]. split; [|done]. cbn. rewrite Forall_forall in H1 |- *. intros c Hc.
    apply elem_of_list_fmap in Hc as (c0 & -> & Hc). by apply (H1 c0).
  - apply E4. cbn. split_and!; [done..|]. intros c Hc. by apply elem_of_list_fmap in Hc as (c0 & -> & _).
  - destruct Hx as (H1 & H2 & H3). split_and!; [done| |done]. cbn. rewrite Forall_forall in H2 |- *.
    intros c Hc. apply elem_of_list_fmap in Hc as (c0 & -> & Hc). by apply (H2 c0).
  - apply E7. cbn. split_and!; [done..|]. intros c Hc. by apply elem_of_list_fmap in Hc as (c0 & -> & _).
Qed.
Print Assumptions transfer_again.

(** A surface whose diffuse-layer viscosity is to be calculated arrives as one whose is not. *)
Theorem transfer_viscosity_refuted {D} (dcmp : D -> D -> comparison) d1 k x ks (from into : reactants (D := D)) :
  (forall a b, dcmp a b = Lt -> dcmp b a = Gt) -> good_cells dcmp ks from -> k ∈ ks ->
  ph_surf from !! k = Some x -> su_calc x = true ->
  exists from' into' y, send_cells dcmp d1 ks from into = Ret (from', into') /\
    ph_surf from' !! k = None /\ ph_surf into' !! k = Some y /\ su_calc y = false.
Proof.
  intros Hd Hg Hk Hx Hc.
  destruct (transfer_cells dcmp d1 ks from into Hd Hg) as (from' & into' & E & R & L & _).
  exists from', into', (arrived_surface x).
  destruct R as (_ & _ & _ & _ & _ & _ & R), L as (_ & _ & _ & _ & _ & _ & L).
  split_and!; [done| | |done].
  - by rewrite L, decide_True.
  - by rewrite R, decide_True, Hx.
Qed.
Print Assumptions transfer_viscosity_refuted.

(** REACTION_TEMPERATURE and REACTION_PRESSURE of a moved cell are found on neither process. *)
Theorem transfer_temperature_refuted {D} (dcmp : D -> D -> comparison) d1 k ks (from into : reactants (D := D)) :
  (forall a b, dcmp a b = Lt -> dcmp b a = Gt) -> good_cells dcmp ks from -> k ∈ ks ->
  ph_temp into !! k = None -> ph_press into !! k = None ->
  exists from' into', send_cells dcmp d1 ks from into = Ret (from', into') /\
    ph_temp from' !! k = None /\ ph_temp into' !! k = None /\
    ph_press from' !! k = None /\ ph_press into' !! k = None.
Proof.
  intros Hd Hg Hk Ht Hp.
  destruct (transfer_cells dcmp d1 ks from into Hd Hg) as (from' & into' & E & _ & _ & T1 & T2 & T3 & T4 & _).
  exists from', into'. split; [done|]. rewrite T2, T4, T1, T3, !decide_True by done. done.
Qed.
Print Assumptions transfer_temperature_refuted.

(** An empty name shifts the amounts that follow: the next name gets the amount of the empty one. *)
Theorem transfer_empty_name_refuted {D} (x y : D) n d rest :
  n <> EmptyString -> printable n -> dict_ok d -> Forall printable (d_words d) ->
  let q := w_names [(EmptyString, x); (n, y)] d in
  r_names (d_words q.1) (apps q.2 rest) = Ret ([(n, x)], (rest.1, y :: rest.2)).
Proof.
  intros Hn Hp Hd Hw. cbv zeta.
  assert (P0 : printable EmptyString) by (split_and!; [by intros []..|cbn; lia]).
  destruct (d_find_spec EmptyString d Hd) as (A1 & A2 & _).
  destruct (d_find_spec n _ A1) as (B1 & B2 & _).
  pose proof (d_find_prefix n _ A1) as [suf Hs].
  assert (W : forall ws i w zs (xs : list D), ws !! i = Some w ->
            r_word ws (Z.of_nat i :: zs, xs) = Ret (w, (zs, xs))).
  { intros ws i w zs xs Hi. unfold r_word, r_bind, r_int, word_at. cbn [fst snd].
    destruct (Z.ltb_spec (Z.of_nat i) 0); [lia|]. by rewrite Nat2Z.id, Hi. }
  unfold w_names, w_list, w_seq, w_then, w_int, w_word, w_dbl, w_nil, apps. cbn [map foldr length fst snd app].
  set (ws := d_words (d_find n (d_find EmptyString d).2).2) in *.
  assert (A2' : ws !! (d_find EmptyString d).1 = Some EmptyString).
  { rewrite Hs. by apply lookup_app_l_Some. }
  unfold r_names, r_count, r_bind at 1, r_int. cbn [fst snd].
  change (Z.to_nat (Z.of_nat 2)) with 2. cbn [r_times].
  unfold r_bind at 1. unfold r_bind at 1. rewrite (W _ _ _ _ _ A2'). rewrite decide_True by done.
  unfold r_ret at 1. unfold r_bind at 1. unfold r_bind at 1. rewrite (W _ _ _ _ _ B2).
  rewrite decide_False by done. unfold r_bind, r_dbl. cbn [fst snd]. done.
Qed.
Print Assumptions transfer_empty_name_refuted.

(** A cell with a solution, equilibrium phases and a surface. *)
Definition ex_names : list (string * Z) := [("Ca", 3); ("Cl(-1)", 6)]%string%Z.
Definition ex_solution (k : Z) : solution (D := Z) := (
  Solution k 9 "input" true 1 0 25 7 4 0 1 111 55 0 1 1 1 2 1 0 ex_names ex_names [] [] true
    [(1, 5); (4, 6)] [] [])%Z.
Definition ex_calcite : pp_comp (D := Z) := ( PPComp "Calcite" "" 0 0 10 0 0 false false false ex_names)%Z.
Definition ex_charge : surf_charge (D := Z) := (
  SurfCharge "Hfo" 600 1 0 0 1 0 0 1 5 [] 0 0 0 0 [(-1, SurfDL 1 2 3); (2, SurfDL 4 5 6)] [(1, 1)] [])%Z.
Definition ex_surface (k : Z) : surface (D := Z) := (
  Surface k k "" [SurfComp "Hfo_wOH" 0 1 [] 0 "Hfo" 0 "" 0 "" 0 "Hfo_w"] [ex_charge] false true 1 2 0 false
    1 0 1 true 1 false false [] true 1)%Z.
Definition ex_cell (k : Z) : reactants (D := Z) := (
  Reactants {[ k := ex_solution k ]} ∅ ∅ ∅ {[ k := PP k k "" true [("Calcite"%string, ex_calcite)] [] [] ]} ∅
    {[ k := ex_surface k ]} {[ k := Steps k k "" [30]%Z 1 false ]} ∅ ∅ ∅)%Z.
Definition ex_none : reactants (D := Z) := Reactants ∅ ∅ ∅ ∅ ∅ ∅ ∅ ∅ ∅ ∅ ∅.
Fixpoint plain_text (s : string) : bool :=
  match s with
  | EmptyString => true
  | String c s' => bool_decide (c <> "010"%char) && bool_decide (c <> "000"%char) && plain_text s'
  end.
Lemma plain_text_printable s : plain_text s = true -> (String.length s <=? 255) = true -> printable s.
Proof.
  intros H L. apply Nat.leb_le in L. split_and!; [..|done]; clear L; induction s as [|c s IH]; cbn in *.
  - tauto.
  - apply andb_true_iff in H as [[H1%bool_decide_eq_true H2%bool_decide_eq_true]%andb_true_iff H3].
    intros [E|E]; [by rewrite <- E in H1|by apply IH].
  - tauto.
  - apply andb_true_iff in H as [[H1%bool_decide_eq_true H2%bool_decide_eq_true]%andb_true_iff H3].
    intros [E|E]; [by rewrite <- E in H2|by apply IH].
Qed.
Ltac pr := apply plain_text_printable; reflexivity.
Lemma ex_names_good : good_names ex_names.
Proof.
  split.
  - apply ordb_ordered. reflexivity.
  - intros n v H. unfold ex_names in H. rewrite !elem_of_cons, elem_of_nil in H.
    destruct H as [[= -> ->]|[[= -> ->]|[]]]; (split; [done|]); pr.
Qed.
Lemma nil_names_good : good_names (V := Z) [].
Proof. split; [apply ordered_nil|]. by intros ? ? ?%elem_of_nil. Qed.
Lemma Zcompare_gt : forall a b, Z.compare a b = Lt -> Z.compare b a = Gt.
Proof. intros a b H. apply Z.compare_gt_iff. by apply Z.compare_lt_iff. Qed.
Lemma ex_cell_good k : good_cells Z.compare [k] (ex_cell k).
Proof.
  split_and!; intros i x Hi Hx; apply elem_of_list_singleton in Hi as ->; cbn in Hx;
    try (by rewrite lookup_empty in Hx); rewrite lookup_singleton in Hx; injection Hx as <-; (split; [done|]).
  - split_and!; try apply ex_names_good; try apply nil_names_good; try (by constructor); cbn.
    + by intros ? ? ?%elem_of_nil.
    + repeat constructor.
  - split_and!; try apply nil_names_good; cbn.
    + apply ordb_ordered. reflexivity.
    + intros n c Hc. apply elem_of_list_singleton in Hc as [= -> ->]. split; [done|].
      split; [pr|]. split; [pr|apply ex_names_good].
  - split_and!; [..|apply nil_names_good]; (apply Forall_cons; split; [|by apply Forall_nil]).
    + split; [pr|]. split; [apply nil_names_good|]. split; [pr|]. split; [pr|]. split; pr.
    + split; [pr|]. split; [apply nil_names_good|]. split; [|constructor].
      cbn. by repeat constructor.
Qed.
Example transfer_example :
  exists from' into' s u, send_cells Z.compare 1%Z [4]%Z (ex_cell 4) ex_none = Ret (from', into') /\
    ph_sol from' !! 4%Z = None /\ ph_sol into' !! 4%Z = Some s /\ so_totals s = ex_names /\
    so_species s = [(1, 5); (4, 6)]%Z /\ so_end s = 4%Z /\ so_text s = "  "%string /\ so_initial s = false /\
    so_visc0 s = 1%Z /\
    ph_surf into' !! 4%Z = Some u /\ su_calc u = false /\ uh_g <$> su_charges u = [uh_g ex_charge] /\
    ph_temp into' !! 4%Z = None.
Proof.
  destruct (transfer_cells Z.compare 1%Z [4]%Z (ex_cell 4) ex_none Zcompare_gt (ex_cell_good 4))
    as (from' & into' & E & R & L & T).
  exists from', into', (arrived_solution 1%Z (ex_solution 4)), (arrived_surface (ex_surface 4)).
  destruct R as (R1 & _ & _ & _ & _ & _ & R7), L as (L1 & _), T as (_ & T & _).
  split; [exact E|]. clear E.
  split; [by rewrite L1, decide_True by by left|].
  split; [by rewrite R1, decide_True by by left|]. do 6 (split; [reflexivity|]).
  split; [by rewrite R7, decide_True by by left|]. do 2 (split; [reflexivity|]).
  by rewrite T.
Qed.

(** * C74 Rebalancing over processes *)

(** For every old and every new distribution: the exchanges succeed, and of every cell each process
    holds exactly what it should. *)
Theorem rebalance_mpi_moves {D} (dcmp : D -> D -> comparison) d1 count ss es ss' es' (ws : list (reactants (D := D))) :
  (forall a b, dcmp a b = Lt -> dcmp b a = Gt) ->
  valid_split count ss es -> valid_split count ss' es' -> length es' = length es -> length ws = length es ->
  all_placed dcmp count ss es ws ->
  exists ws', rebalance_mpi dcmp d1 count es es' ws = Ret ws' /\ length ws' = length ws /\
    settled (arrived_solution d1) count ss es ss' es' ph_sol ws ws' /\
    settled arrived_exchange count ss es ss' es' ph_ex ws ws' /\
    settled arrived_gas_phase count ss es ss' es' ph_gas ws ws' /\
    settled arrived_kinetics count ss es ss' es' ph_kin ws ws' /\
    settled arrived_pp count ss es ss' es' ph_pp ws ws' /\
    settled arrived_ssa count ss es ss' es' ph_ss ws ws' /\
    settled arrived_surface count ss es ss' es' ph_surf ws ws'.
Proof.
  intros Hd V V' Hl Lw Hp. destruct (plan_spec count ss es ss' es' V V') as (tp & Et & Pt & Nt).
  destruct (send_all_spec dcmp d1 Hd count ss es ss' es' V V' ws tp Hp Pt Hl (in_plan tp) ws)
    as (ws' & E & L & U1 & U2 & U3 & U4 & U5 & U6 & U7).
  - intros k. apply in_plan_dec.
  - done.
  - destruct Hp as (P1 & P2 & P3 & P4 & P5 & P6 & P7).
    split_and!; by eapply underway_start.
  - exists ws'. unfold rebalance_mpi. rewrite Et. cbn [obind].
    split_and!; try done; (eapply underway_end; [|eassumption]); intros k [H1 H2]; by apply H2.
Qed.
Print Assumptions rebalance_mpi_moves.

(** Two processes with cells 0-1 and 2; afterwards 0 and 1-2. *)
Example rebalance_mpi_example :
  let ws := [ex_cell 1; ex_cell 2] in
  valid_split 3 [0; 2]%Z [1; 2]%Z /\ valid_split 3 [0; 1]%Z [0; 2]%Z /\
  all_placed Z.compare 3 [0; 2]%Z [1; 2]%Z ws /\
  exists ws', rebalance_mpi Z.compare 1%Z 3 [1; 2]%Z [0; 2]%Z ws = Ret ws' /\
    on ph_sol ws' 0 1 = None /\ on ph_sol ws' 1 1 = Some (arrived_solution 1%Z (ex_solution 1)) /\
    on ph_sol ws' 1 2 = Some (ex_solution 2).
Proof.
  cbv zeta.
  assert (V : valid_split 3 [0; 2]%Z [1; 2]%Z).
  { split; try done; intros [|[|t]] a b; cbn; intros; simplify_eq; lia. }
  assert (V' : valid_split 3 [0; 1]%Z [0; 2]%Z).
  { split; try done; intros [|[|t]] a b; cbn; intros; simplify_eq; lia. }
  assert (P : all_placed Z.compare 3 [0; 2]%Z [1; 2]%Z [ex_cell 1; ex_cell 2]).
  { destruct (ex_cell_good 1) as (A1 & A2 & A3 & A4 & A5 & A6 & A7).
    destruct (ex_cell_good 2) as (B1 & B2 & B3 & B4 & B5 & B6 & B7).
    split_and!; intros [|[|p]] w k x Hw Hk Hx; cbn in Hw; simplify_eq; cbn in Hx;
      try (by rewrite lookup_empty in Hx);
      (destruct (decide (k = 1)%Z) as [-> | ]; [|destruct (decide (k = 2)%Z) as [-> | ]]);
      try (by rewrite lookup_singleton_ne in Hx by congruence);
      (split; [|match goal with H : sendable ?n ?g _ _ |- ?n _ = _ /\ _ => by apply H; [by left|] end]);
      by eexists _, _. }
  split_and!; [done..|].
  destruct (rebalance_mpi_moves Z.compare 1%Z 3 _ _ _ _ [ex_cell 1; ex_cell 2] Zcompare_gt V V' eq_refl eq_refl P)
    as (ws' & E & L & [S1 _] & _).
  assert (O1 : owns [0; 2]%Z [1; 2]%Z 0 1) by (exists 0%Z, 1%Z; split_and!; (done || lia)).
  assert (O2 : owns [0; 2]%Z [1; 2]%Z 1 2) by (exists 2%Z, 2%Z; split_and!; (done || lia)).
  assert (N1 : owns [0; 1]%Z [0; 2]%Z 1 1) by (exists 1%Z, 2%Z; split_and!; (done || lia)).
  assert (N2 : owns [0; 1]%Z [0; 2]%Z 1 2) by (exists 1%Z, 2%Z; split_and!; (done || lia)).
  exists ws'. split; [exact E|]. clear E. split_and!.
  - by rewrite (S1 1%Z 0 1 0) by (done || lia).
  - by rewrite (S1 1%Z 0 1 1) by (done || lia).
  - by rewrite (S1 2%Z 1 1 1) by (done || lia).
Qed.
