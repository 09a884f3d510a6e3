(** Concentrations one component at a time: GetIthConcentration, SetIthConcentration and what
    RunCells does with them.

    Source: src/PhreeqcRM.cpp 3321-3378 and 9824-9941 (non-MPI build). The reaction step itself is
    an arbitrary function on the cell contents. The species variants are in Species/Ith.v. Not
    modelled: the first-call check of the cells (765-800) and rebalancing. *)
From Coq Require Import String QArith Qcanon ZArith.
From stdpp Require Import prelude strings gmap.
From Verif.Base Require Import Result.
From Verif.Names Require Import Model Spec Proofs.
From Verif.Solution Require Import Model Proofs.
From Verif.Conc Require Import Model Spec Proofs Props.
Local Open Scope Qc_scope.

Record rm := Rm {
  r_cells : cells;
  r_cache : list Qc;      (* CurrentConcentrations *)
  r_staged : list Qc;     (* IthCurrentConcentrations *)
  r_set : gset nat;       (* IthConcentrationSet *)
}.

Definition in_range (c : cfg) (i : Z) : bool :=
  bool_decide (0 <= i)%Z && bool_decide (i < Z.of_nat (length (c_comps c)))%Z.

(** GetConcentrations into a member vector; the totals of the cells are collapsed on the way. *)
Definition do_get (c : cfg) (g : grid) (old : list Qc) (st : rm) : outcome (list Qc * rm) :=
  obind (get_concentrations c g (r_cells st) old) (fun out =>
  Ret (out, Rm (after_get (r_cells st)) (r_cache st) (r_staged st) (r_set st))).

(** GetIthConcentration, PhreeqcRM.cpp 3321-3348; [None] is IRM_INVALIDARG *)
Definition get_ith (c : cfg) (g : grid) (i : Z) (st : rm) : outcome (option (list Qc) * rm) :=
  if in_range c i then
    obind (if decide (length (r_cache st) = (g_n g * length (c_comps c))%nat) then Ret st
           else obind (do_get c g (r_cache st) st) (fun r =>
                Ret (Rm (r_cells r.2) r.1 (r_staged r.2) (r_set r.2)))) (fun st =>
    obind (omap_list (fun j => vat (r_cache st) (Z.to_nat i * g_n g + j)) (seq 0 (g_n g))) (fun col =>
    Ret (Some col, st)))
  else Ret (None, st).

(** PhreeqcRM.cpp 3367-3370 *)
Fixpoint put_column (n i j todo : nat) (col : list Qc) (v : list Qc) : outcome (list Qc) :=
  match todo with
  | O => Ret v
  | S todo' => obind (vat col j) (fun x => obind (vset (i * n + j) x v) (put_column n i (S j) todo' col))
  end.
(** SetIthConcentration, PhreeqcRM.cpp 3350-3378. The size of the argument is only asserted; a short
    vector is read past its end. *)
Definition set_ith (c : cfg) (g : grid) (i : Z) (col : list Qc) (st : rm) : outcome rm :=
  if in_range c i then
    let st := if decide (length (r_staged st) = (g_n g * length (c_comps c))%nat) then st
              else Rm (r_cells st) (r_cache st) (replicate (g_n g * length (c_comps c)) 0) ∅ in
    obind (put_column (g_n g) (Z.to_nat i) 0 (g_n g) col (r_staged st)) (fun v =>
    Ret (Rm (r_cells st) (r_cache st) v ({[ Z.to_nat i ]} ∪ r_set st)))
  else Ret st.

(** SetConcentrations *)
Definition do_set (c : cfg) (g : grid) (t : list Qc) (st : rm) : outcome rm :=
  obind (set_concentrations c g t (r_cells st)) (fun m =>
  Ret (Rm m (r_cache st) (r_staged st) (r_set st))).

(** RunCells, PhreeqcRM.cpp 9836-9844 *)
Definition take_staged (c : cfg) (g : grid) (st : rm) : outcome rm :=
  if decide (0 < size (r_set st))%nat then
    if decide (size (r_set st) <> length (c_comps c)) then Throw
    else do_set c g (r_staged st) st
  else Ret st.
(** RunCells, PhreeqcRM.cpp 9933-9935 *)
Definition finish_run (c : cfg) (g : grid) (st : rm) : outcome rm :=
  obind (do_get c g (r_cache st) st) (fun r => Ret (Rm (r_cells r.2) r.1 (r_staged r.2) ∅)).
(** RunCells, PhreeqcRM.cpp 9824-9941, with the reaction step [solve] *)
Definition run_cells (c : cfg) (g : grid) (solve : cells -> cells) (st : rm) : outcome rm :=
  obind (take_staged c g st) (fun st =>
  finish_run c g (Rm (solve (r_cells st)) (r_cache st) (r_staged st) (r_set st))).

(** Calls between two reaction steps. [Change] stands for everything else that alters the cells
    (StateApply, SpeciesConcentrations2Module, the InitialXxx2Module methods). *)
Inductive call :=
| GetIth (i : Z)
| SetIth (i : Z) (col : list Qc)
| GetConc (old : list Qc)
| SetConc (t : list Qc)
| Change (f : cells -> cells).
Definition do_call (c : cfg) (g : grid) (x : call) (st : rm) : outcome rm :=
  match x with
  | GetIth i => obind (get_ith c g i st) (fun r => Ret r.2)
  | SetIth i col => set_ith c g i col st
  | GetConc old => obind (do_get c g old st) (fun r => Ret r.2)
  | SetConc t => do_set c g t st
  | Change f => Ret (Rm (f (r_cells st)) (r_cache st) (r_staged st) (r_set st))
  end.
Fixpoint do_calls (c : cfg) (g : grid) (xs : list call) (st : rm) : outcome rm :=
  match xs with
  | [] => Ret st
  | x :: xs' => obind (do_call c g x st) (do_calls c g xs')
  end.

(** ** Vocabulary *)

(** The last value given for component [i]. *)
Fixpoint last_given (i : Z) (xs : list call) : option (list Qc) :=
  match xs with
  | [] => None
  | x :: xs' =>
      match last_given i xs' with
      | Some v => Some v
      | None => match x with SetIth i' v => if decide (i' = i) then Some v else None | _ => None end
      end
  end.
(** Every vector given covers the grid. *)
Definition columns_ok (g : grid) (xs : list call) : Prop :=
  forall i v, SetIth i v ∈ xs -> (g_n g <= length v)%nat.
(** The array assembled from the last value given for each of [nc] components. *)
Definition assembled (n nc : nat) (xs : list call) (t : list Qc) : Prop :=
  length t = (n * nc)%nat /\
  forall i j v, (i < nc)%nat -> (j < n)%nat -> last_given (Z.of_nat i) xs = Some v ->
    t !! (i * n + j)%nat = v !! j.
(** Calls that do not change the cells. *)
Definition reading (x : call) : Prop :=
  match x with GetIth _ | SetIth _ _ | GetConc _ => True | _ => False end.
Definition cells_ok (g : grid) (m : cells) : Prop :=
  length m = length (g_back g) /\ Forall (fun s => exists s', s = Some s' /\ wf_totals s') m.

(** ** Proofs *)

Lemma put_column_spec n nc i col todo j v :
  length v = (n * nc)%nat -> (i < nc)%nat -> (j + todo <= n)%nat -> (j + todo <= length col)%nat ->
  exists v', put_column n i j todo col v = Ret v' /\ length v' = length v /\
    forall i' j', (i' < nc)%nat -> (j' < n)%nat ->
      v' !! (i' * n + j')%nat =
      if decide (i' = i /\ j <= j' < j + todo)%nat then col !! j' else v !! (i' * n + j')%nat.
Proof.
  revert j v. induction todo as [|todo IH]; intros j v Hl Hi Hj Hc.
  { exists v. split_and!; [done..|]. intros. by rewrite decide_False by lia. }
  simpl. destruct (lookup_lt_is_Some_2 col j) as [x Hx]; [lia|]. unfold vat. rewrite Hx. cbn [obind].
  unfold vset. assert (Hp : (i * n + j < length v)%nat) by nia. rewrite decide_True by done. cbn [obind].
  destruct (IH (S j) (<[(i * n + j)%nat := x]> v)) as (v' & E & L & Es); [by rewrite insert_length|done|lia|lia|].
  exists v'. split_and!; [done|by rewrite L, insert_length|]. intros i' j' Hi' Hj'. rewrite Es by done.
  destruct (decide (i' = i /\ S j <= j' < S j + todo)%nat) as [Ha|Ha].
  - by rewrite decide_True by lia.
  - destruct (decide (i' = i /\ j <= j' < j + S todo)%nat) as [[-> Hb]|Hb].
    + assert (j' = j) as -> by lia. by rewrite list_lookup_insert.
    + rewrite list_lookup_insert_ne; [done|]. intros Heq.
      rewrite (Nat.mul_comm i), (Nat.mul_comm i') in Heq. apply pos_inj in Heq; [|lia..]. lia.
Qed.

Lemma in_range_spec c i : in_range c i = true <-> (0 <= i < Z.of_nat (length (c_comps c)))%Z.
Proof. unfold in_range. rewrite andb_true_iff, !bool_decide_eq_true. done. Qed.

(** What staging has collected. *)
Definition staging (c : cfg) (g : grid) (xs : list call) (st : rm) : Prop :=
  (forall i, i ∈ r_set st <-> (i < length (c_comps c))%nat /\ is_Some (last_given (Z.of_nat i) xs)) /\
  (r_set st <> ∅ -> length (r_staged st) = (g_n g * length (c_comps c))%nat) /\
  (forall i j v, i ∈ r_set st -> (j < g_n g)%nat -> last_given (Z.of_nat i) xs = Some v ->
     r_staged st !! (i * g_n g + j)%nat = v !! j).

Lemma last_given_snoc i xs x : last_given i (xs ++ [x]) =
  match x with SetIth i' v => if decide (i' = i) then Some v else last_given i xs | _ => last_given i xs end.
Proof.
  induction xs as [|y xs IH]; simpl; [by destruct x as [|i' v| | |]; try done; case_decide|]. rewrite IH.
  destruct x as [|i' v| | |]; try done. by destruct (decide (i' = i)).
Qed.

Lemma staging_step c g xs x st st' :
  staging c g xs st -> (forall i v, x = SetIth i v -> (g_n g <= length v)%nat) ->
  do_call c g x st = Ret st' -> staging c g (xs ++ [x]) st'.
Proof.
  intros (A & B & C) Hx E.
  assert (Hsame : r_set st' = r_set st -> r_staged st' = r_staged st ->
                  (forall i, last_given i (xs ++ [x]) = last_given i xs) -> staging c g (xs ++ [x]) st').
  { intros E1 E2 E3. unfold staging. rewrite E1, E2. split_and!; [|done|].
    - intros i. by rewrite E3.
    - intros i j v. rewrite E3. apply C. }
  destruct x as [i|i v|old|t|f]; cbn [do_call] in E.
  - apply Hsame; [| |by intros; rewrite last_given_snoc]; clear Hsame.
    all: unfold get_ith, do_get in E; destruct (in_range c i); [|by injection E as <-]; case_decide; cbn [obind] in E;
      [destruct (omap_list _ _); [|done|done]; by injection E as <-|];
      destruct (get_concentrations c g (r_cells st) (r_cache st)); [|done|done]; cbn [obind r_cells r_cache r_staged r_set fst snd] in E;
      (destruct (omap_list _ _); [|done|done]); by injection E as <-.
  - unfold set_ith in E. destruct (in_range c i) eqn:Er.
    2:{ injection E as <-.
        assert (E3 : forall k, (k < length (c_comps c))%nat -> last_given (Z.of_nat k) (xs ++ [SetIth i v]) = last_given (Z.of_nat k) xs).
        { intros k Hk. rewrite last_given_snoc. rewrite decide_False; [done|]. intros ->.
          assert (Ht : in_range c (Z.of_nat k) = true) by (apply in_range_spec; lia). congruence. }
        unfold staging. split_and!; [|done|].
        - intros k. rewrite A. split; intros [H1 H2]; (split; [done|]); [by rewrite E3|by rewrite E3 in H2].
        - intros k j w Hk Hj. rewrite E3 by by apply A. by apply C. }
    apply in_range_spec in Er. set (n := g_n g) in *. set (nc := length (c_comps c)) in *.
    remember (if decide (length (r_staged st) = (n * nc)%nat) then st
              else Rm (r_cells st) (r_cache st) (replicate (n * nc) 0) ∅) as st1 eqn:E1.
    assert (S1 : length (r_staged st1) = (n * nc)%nat /\ staging c g xs st1).
    { subst st1. case_decide as Hd; [split; [done|by split_and!]|].
      cbn [r_staged r_set]. split; [by rewrite replicate_length|].
      assert (Hemp : r_set st = ∅). { destruct (decide (r_set st = ∅)); [done|]. destruct Hd. by apply B. }
      split_and!; cbn [r_staged r_set].
      - intros k. fold nc. rewrite <- A, Hemp. done.
      - done.
      - intros k j w Hk. exfalso. by apply elem_of_empty in Hk. }
    destruct S1 as (L1 & A1 & B1 & C1).
    destruct (put_column_spec n nc (Z.to_nat i) v n 0 (r_staged st1)) as (v' & Ep & Lp & Sp); [done|lia|lia|by apply (Hx i v)|].
    cbn zeta in E. rewrite Ep in E. cbn [obind] in E. injection E as <-. clear Hsame.
    split_and!; cbn [r_set r_staged].
    + intros k. rewrite elem_of_union, elem_of_singleton, A1, last_given_snoc. fold nc.
      destruct (decide (i = Z.of_nat k)) as [->|Hne].
      * rewrite Nat2Z.id. split; [intros _; split; [lia|by eexists]|by left].
      * split; [intros [->|H]|by right]; [exfalso; apply Hne; lia|done].
    + intros _. by rewrite Lp.
    + intros k j w Hk Hj. rewrite last_given_snoc. apply elem_of_union in Hk.
      destruct (decide (i = Z.of_nat k)) as [->|Hne].
      * intros [= <-]. rewrite Sp by lia. rewrite Nat2Z.id. by rewrite decide_True by lia.
      * intros Hw. assert (Hk' : k ∈ r_set st1).
        { destruct Hk as [Hk|Hk]; [|done]. apply elem_of_singleton in Hk. exfalso. apply Hne. lia. }
        rewrite Sp; [|apply A1 in Hk'; tauto|done]. rewrite decide_False by lia. by apply C1.
  - unfold do_get in E. destruct (get_concentrations c g (r_cells st) old); [|done|done]. injection E as <-.
    apply Hsame; [done..|]. intros. by rewrite last_given_snoc.
  - unfold do_set in E. destruct (set_concentrations c g t (r_cells st)); [|done|done]. injection E as <-.
    apply Hsame; [done..|]. intros. by rewrite last_given_snoc.
  - injection E as <-. apply Hsame; [done..|]. intros. by rewrite last_given_snoc.
Qed.

Lemma do_calls_app c g xs ys st : do_calls c g (xs ++ ys) st = obind (do_calls c g xs st) (do_calls c g ys).
Proof.
  revert st. induction xs as [|x xs IH]; intros st; simpl; [done|].
  destruct (do_call c g x st); [|done|done]. cbn [obind]. apply IH.
Qed.

Lemma staging_all c g xs st st' : r_set st = ∅ -> columns_ok g xs -> do_calls c g xs st = Ret st' -> staging c g xs st'.
Proof.
  intros He. revert st'. induction xs as [|x xs IH] using rev_ind; intros st' Hc E.
  { injection E as <-. split_and!; [|done|].
    - intros i. rewrite He. split; [by intros ?%elem_of_empty|intros [_ [v Hv]]; done].
    - intros i j v. rewrite He. by intros ?%elem_of_empty. }
  rewrite do_calls_app in E. destruct (do_calls c g xs st) as [st1| |] eqn:E1; [|done|done]. cbn [obind] in E.
  simpl in E. destruct (do_call c g x st1) as [st2| |] eqn:E2; [|done|done]. injection E as <-.
  eapply staging_step; [|intros i v ->; apply (Hc i v); set_solver|exact E2].
  apply IH; [|done]. intros i v Hin. apply (Hc i v). set_solver.
Qed.

(** C16. Starting from a state with nothing staged, after any calls: *)
Theorem set_ith_all_or_nothing c g solve xs st st' :
  r_set st = ∅ -> columns_ok g xs -> do_calls c g xs st = Ret st' ->
  let given i := (i < length (c_comps c))%nat /\ is_Some (last_given (Z.of_nat i) xs) in
  (* every component was given, in whatever order: as SetConcentrations with the assembled array *)
  ((0 < length (c_comps c))%nat -> (forall i, (i < length (c_comps c))%nat -> given i) ->
     exists t, assembled (g_n g) (length (c_comps c)) xs t /\
       run_cells c g solve st' =
       obind (do_set c g t (Rm (r_cells st') (r_cache st') (r_staged st') ∅)) (run_cells c g solve)) /\
  (* some were given but not all: an exception *)
  ((exists i, given i) -> (exists i, (i < length (c_comps c))%nat /\ ~ given i) ->
     run_cells c g solve st' = Throw) /\
  (* none was given: the reaction step starts from the cells as they are *)
  ((forall i, ~ given i) ->
     run_cells c g solve st' =
     finish_run c g (Rm (solve (r_cells st')) (r_cache st') (r_staged st') (r_set st'))) /\
  (* in any case nothing is staged afterwards *)
  (forall st'', run_cells c g solve st' = Ret st'' -> r_set st'' = ∅).
Proof.
  intros He Hc E given. destruct (staging_all c g xs st st' He Hc E) as (A & B & C).
  assert (Hseq : forall i, i ∈ r_set st' -> i ∈ (list_to_set (seq 0 (length (c_comps c))) : gset nat)).
  { intros i Hi. apply A in Hi as [Hi _]. apply elem_of_list_to_set, elem_of_seq. lia. }
  assert (Hsz : size (list_to_set (seq 0 (length (c_comps c))) : gset nat) = length (c_comps c)).
  { rewrite size_list_to_set by apply NoDup_seq. apply seq_length. }
  split_and!.
  - intros Hpos Hall.
    assert (Eset : r_set st' = list_to_set (seq 0 (length (c_comps c)))).
    { apply set_eq. intros i. split; [apply Hseq|]. rewrite elem_of_list_to_set, elem_of_seq. intros Hi. apply A.
      by apply Hall; lia. }
    assert (Hne : r_set st' <> ∅).
    { intros E0. rewrite E0 in Eset. rewrite <- Eset, size_empty in Hsz. lia. }
    exists (r_staged st'). split.
    + split; [by apply B|]. intros i j v Hi Hj Hv. apply C; [|done..]. apply A. split; [done|by eexists].
    + unfold run_cells, take_staged at 1. rewrite Eset, Hsz.
      rewrite decide_True by done. rewrite decide_False by tauto. unfold do_set. cbn [r_cells r_cache r_staged r_set].
      destruct (set_concentrations c g (r_staged st') (r_cells st')) as [m'| |]; [|done|done].
      cbn [obind]. unfold take_staged. cbn [r_set]. rewrite size_empty, decide_False by lia. cbn [obind r_cells r_cache r_staged r_set].
      unfold finish_run, do_get. cbn [r_cells r_cache r_staged r_set]. 
      destruct (get_concentrations c g (solve m') (r_cache st')); done.
  - intros [i Hi] (k & Hk & Hnk). unfold run_cells, take_staged.
    apply A in Hi. rewrite decide_True.
    2:{ assert (size (r_set st') <> 0%nat); [|lia]. intros E0. apply size_empty_iff in E0. set_solver. }
    rewrite decide_True; [done|]. rewrite <- Hsz. intros Heq.
    assert (Hlt : (size (r_set st') < size (list_to_set (seq 0 (length (c_comps c))) : gset nat))%nat); [|lia].
    apply subset_size. split; [intros x; apply Hseq|]. intros Hsub. apply Hnk, A, Hsub.
    apply elem_of_list_to_set, elem_of_seq. lia.
  - intros Hno. unfold run_cells, take_staged. rewrite decide_False; [done|].
    assert (E0 : r_set st' = ∅). { apply set_eq. intros i. rewrite A. split; [intros H; by destruct (Hno i)|by intros ?%elem_of_empty]. }
    rewrite E0, size_empty. lia.
  - intros st''. unfold run_cells. destruct (take_staged c g st') as [st1| |]; [|done|done]. cbn [obind].
    unfold finish_run. destruct (do_get _ _ _ _); [|done|done]. cbn [obind]. by intros [= <-].
Qed.
Print Assumptions set_ith_all_or_nothing.

(** ** C15 *)

Lemma simplified_plain s n v : wf_totals s -> (n, v) ∈ simplify_redox 0 Qcplus (s_totals s) -> element_name n.
Proof.
  intros [Ho Hw] Hin. apply simplify_elem in Hin; [|done..].
  destruct Hin as (H1 & H2 & H3 & (m & w & Hm & <-) & _). split_and!; [|unfold valence; rewrite element_idem; tauto|done..].
  by destruct (Hw m w Hm).
Qed.
Lemma simplified_idem s : wf_totals s -> simplified (simplified s) = simplified s.
Proof.
  intros Hw. assert (E : simplify_redox 0 Qcplus (simplify_redox 0 Qcplus (s_totals s)) = simplify_redox 0 Qcplus (s_totals s)).
  { apply simplify_plain; [intros; ring|by apply simplify_ordered; apply Hw|]. intros n v Hin. by eapply simplified_plain. }
  unfold simplified. cbn [s_tc s_ph s_pe s_mu s_ah2o s_dens s_visc s_visc0 s_patm s_h s_o s_cb s_mw s_vol s_alk s_totals s_gamma s_iso s_species].
  by rewrite E.
Qed.
Lemma simplified_wf s : wf_totals s -> wf_totals (simplified s).
Proof.
  intros Hw. split; unfold simplified; cbn [s_totals]; [by apply simplify_ordered; apply Hw|].
  intros n v Hin. destruct (simplified_plain s n v Hw Hin) as (P1 & P2 & _).
  assert (Hee : element n = n) by (destruct (decide (element n = n)); [done|by destruct P2]).
  unfold wf_name. rewrite Hee. by split; [|left].
Qed.
Lemma get_after_get c g m old : Forall (fun s => exists s', s = Some s' /\ wf_totals s') m ->
  get_concentrations c g (after_get m) old = get_concentrations c g m old.
Proof.
  unfold get_concentrations. generalize (replicate (g_n g * length (c_comps c)) inactive). generalize (g_back g).
  intros back. revert m. induction back as [|b back IH]; intros m out Hm; [done|].
  destruct m as [|s m]; [done|]. apply Forall_cons in Hm as [(s' & -> & Hw) Hm]. cbn [after_get map option_map get_cells].
  assert (Ev : vol_dens c g b (simplified s') = vol_dens c g b s') by done. rewrite Ev.
  destruct (vol_dens c g b s') as [vd| |]; [|done|done]. cbn [obind].
  assert (Ec : cell_out c vd.1 vd.2 (simplified s') = cell_out c vd.1 vd.2 s').
  { unfold cell_out. by rewrite simplified_idem. }
  rewrite Ec. destruct (cell_out c vd.1 vd.2 s'); [|done|done]. cbn [obind].
  destruct (scatter _ _ _ _ _); [|done|done]. cbn [obind]. by apply IH.
Qed.
Lemma cells_ok_after g m : cells_ok g m -> cells_ok g (after_get m).
Proof.
  intros [L H]. split; [unfold after_get; by rewrite map_length|]. apply Forall_fmap. eapply Forall_impl; [exact H|].
  intros s (s' & -> & Hw). exists (simplified s'). split; [done|]. by apply simplified_wf.
Qed.
Lemma cells_ok_all g m : cells_ok g m -> Forall is_Some m.
Proof. intros [_ H]. eapply Forall_impl; [exact H|]. intros s (s' & -> & _). by eexists. Qed.
Lemma set_cells_ok c g t m m' : grid_ok g -> cfg_ok c -> (g_n g * length (c_comps c) <= length t)%nat ->
  cells_ok g m -> set_concentrations c g t m = Ret m' -> cells_ok g m'.
Proof.
  intros Hg Hc Ht [Hl Hm] E. pose proof Hc as (Hco & _).
  destruct (set_total c g t m Hg Hco Ht Hl) as (m1 & E' & L & S1).
  rewrite E in E'. injection E' as <-. split; [congruence|]. apply Forall_lookup. intros j s' Hs'.
  assert (Hj : (j < length m)%nat) by (rewrite <- L; by eapply lookup_lt_Some).
  destruct (lookup_lt_is_Some_2 _ _ Hj) as [s Hs]. rewrite Hl in Hj.
  destruct (rep_of g j Hg Hj) as (gc & b & Hb & _). assert (Hr : rep g j gc) by by exists b.
  rewrite Forall_lookup in Hm. destruct (Hm j s Hs) as (s0 & -> & Hw).
  destruct (rep_props g j gc Hg Hr) as (_ & _ & por & sat & rv & dens & P1 & P2 & P3 & P4).
  destruct (decide (0 < sat)) as [Hsat|Hsat].
  - destruct (set_stores c g t m j gc s0 por sat rv dens Hg Hc Hl Ht Hr Hs P1 P2 P3 P4 Hsat)
      as (m1 & s1 & E1 & _ & Hs1 & Hw1 & _). rewrite E in E1. injection E1 as <-.
    rewrite Hs' in Hs1. injection Hs1 as ->. by exists s1.
  - destruct (S1 j gc (Some s0) Hr Hs) as (s1 & Hs1 & C1). rewrite Hs' in Hs1. injection Hs1 as <-.
    assert (Ef : Qc_ltb 0 sat = false).
    { destruct (Qc_ltb 0 sat) eqn:E0; [|done]. by apply Qc_ltb_true in E0. }
    unfold cell_in, vat in C1. case_decide; [done|].
    rewrite Hb in C1. cbn in C1. rewrite P4 in C1. cbn in C1. rewrite P1 in C1. cbn in C1.
    rewrite P3 in C1. cbn in C1. rewrite P2 in C1. cbn in C1. rewrite Ef in C1. injection C1 as <-. by exists s0.
Qed.

(** A state as the calls leave it. *)
Definition rm_ok (c : cfg) (g : grid) (st : rm) : Prop :=
  cells_ok g (r_cells st) /\ (r_set st <> ∅ -> length (r_staged st) = (g_n g * length (c_comps c))%nat).
(** The cache is current. *)
Definition fresh (c : cfg) (g : grid) (st : rm) : Prop :=
  cells_ok g (r_cells st) /\ get_concentrations c g (r_cells st) [] = Ret (r_cache st).

Lemma fresh_len c g st : grid_ok g -> cfg_ok c -> fresh c g st -> length (r_cache st) = (g_n g * length (c_comps c))%nat.
Proof.
  intros Hg (Hc & _) [Hm E]. destruct (get_spec c g (r_cells st) [] Hg Hc (cells_ok_all _ _ Hm) (proj1 Hm)) as (out & E' & L & _).
  rewrite E in E'. by injection E' as ->.
Qed.
Lemma fresh_column c g st i : grid_ok g -> cfg_ok c -> fresh c g st -> in_range c i = true ->
  exists col, get_ith c g i st = Ret (Some col, st) /\ length col = g_n g /\
    forall j, (j < g_n g)%nat -> col !! j = r_cache st !! (Z.to_nat i * g_n g + j)%nat.
Proof.
  intros Hg Hc Hf Hi. pose proof (fresh_len c g st Hg Hc Hf) as L. unfold get_ith. rewrite Hi, decide_True by done.
  cbn [obind]. apply in_range_spec in Hi.
  rewrite (omap_list_ret _ (fun j => default 0 (r_cache st !! (Z.to_nat i * g_n g + j)%nat))).
  2:{ intros j Hj. apply elem_of_seq in Hj. unfold vat.
      destruct (lookup_lt_is_Some_2 (r_cache st) (Z.to_nat i * g_n g + j)) as [x ->]; [|done]. rewrite L. nia. }
  cbn [obind]. eexists. split; [reflexivity|]. split; [by rewrite map_length, seq_length|].
  intros j Hj. rewrite seq_map_lookup by done.
  destruct (lookup_lt_is_Some_2 (r_cache st) (Z.to_nat i * g_n g + j)) as [x ->]; [|done]. rewrite L. nia.
Qed.
Lemma fresh_reading c g x st st' : grid_ok g -> cfg_ok c -> reading x -> fresh c g st ->
  do_call c g x st = Ret st' -> fresh c g st'.
Proof.
  intros Hg Hc Hx Hf E. destruct x as [i|i v|old|t|f]; [| | |done|done]; cbn [do_call] in E.
  - destruct (in_range c i) eqn:Hi.
    + destruct (fresh_column c g st i Hg Hc Hf Hi) as (col & E' & _). rewrite E' in E. by injection E as <-.
    + unfold get_ith in E. rewrite Hi in E. by injection E as <-.
  - unfold set_ith in E. destruct (in_range c i); [|by injection E as <-]. cbn zeta in E.
    destruct (decide _); destruct (put_column _ _ _ _ _ _); try done; injection E as <-; exact Hf.
  - unfold do_get in E. destruct (get_concentrations c g (r_cells st) old) as [o| |]; [|done|done].
    injection E as <-. destruct Hf as [Hm Hf]. split; cbn [r_cells r_cache].
    + by apply cells_ok_after.
    + rewrite get_after_get by apply Hm. done.
Qed.

(** After RunCells and any further reads or staged values, GetIthConcentration(i) is column i of what
    GetConcentrations would return now; an index out of range is refused. *)
Theorem get_ith_current c g solve xs st st1 st2 :
  grid_ok g -> cfg_ok c -> rm_ok c g st -> (forall m, cells_ok g m -> cells_ok g (solve m)) ->
  run_cells c g solve st = Ret st1 -> Forall reading xs -> do_calls c g xs st1 = Ret st2 ->
  exists out, (forall old, get_concentrations c g (r_cells st2) old = Ret out) /\
    forall i, ((0 <= i < Z.of_nat (length (c_comps c)))%Z ->
                exists col, get_ith c g i st2 = Ret (Some col, st2) /\ length col = g_n g /\
                  forall j, (j < g_n g)%nat -> col !! j = out !! (Z.to_nat i * g_n g + j)%nat) /\
              (~ (0 <= i < Z.of_nat (length (c_comps c)))%Z -> get_ith c g i st2 = Ret (None, st2)).
Proof.
  intros Hg Hc [Hm Hs] Hsolve E1 Hx E2.
  assert (F1 : fresh c g st1).
  { unfold run_cells in E1. destruct (take_staged c g st) as [st0| |] eqn:Et; [|done|done]. cbn [obind] in E1.
    assert (Hm0 : cells_ok g (r_cells st0)).
    { unfold take_staged in Et. case_decide; [|by injection Et as <-]. case_decide; [done|].
      unfold do_set in Et. destruct (set_concentrations c g (r_staged st) (r_cells st)) as [m'| |] eqn:Es; [|done|done].
      injection Et as <-. cbn [r_cells]. eapply set_cells_ok; [done|done| |exact Hm|exact Es].
      rewrite Hs; [done|]. intros E0. rewrite E0, size_empty in *. lia. }
    unfold finish_run, do_get in E1. cbn [r_cells r_cache r_staged r_set] in E1.
    destruct (get_concentrations c g (solve (r_cells st0)) (r_cache st0)) as [o| |] eqn:Eg; [|done|done].
    injection E1 as <-. cbn [fst snd r_cells r_cache r_staged r_set]. 
    split; cbn [r_cells r_cache]; [by apply cells_ok_after, Hsolve|].
    rewrite get_after_get by by apply (Hsolve _ Hm0). exact Eg. }
  assert (F2 : fresh c g st2).
  { clear -Hg Hc Hx E2 F1. revert st1 F1 E2. induction Hx as [|x xs Hx _ IH]; intros st1 F1 E2; [by injection E2 as <-|].
    cbn [do_calls] in E2. destruct (do_call c g x st1) as [st'| |] eqn:E; [|done|done].
    eapply IH; [|exact E2]. by eapply fresh_reading. }
  exists (r_cache st2). split.
  - intros old. apply F2.
  - intros i. split.
    + intros Hi. apply in_range_spec in Hi. by apply fresh_column.
    + intros Hi. unfold get_ith. destruct (in_range c i) eqn:Er; [|done]. by apply in_range_spec in Er.
Qed.
Print Assumptions get_ith_current.

(** ... but after SetConcentrations, StateApply or anything else that changes the cells it goes on
    reporting the last reaction step, whatever the cells hold now. *)
Theorem get_ith_stale_refuted c g x st st' i :
  length (r_cache st) = (g_n g * length (c_comps c))%nat ->
  match x with SetConc _ | Change _ => True | _ => False end ->
  do_call c g x st = Ret st' ->
  exists col, get_ith c g i st = Ret (col, st) /\ get_ith c g i st' = Ret (col, st').
Proof.
  intros L Hx E.
  assert (Ec : r_cache st' = r_cache st).
  { destruct x; try done; cbn [do_call] in E; [|by injection E as <-]. unfold do_set in E.
    destruct (set_concentrations _ _ _ _); [|done|done]. by injection E as <-. }
  unfold get_ith. rewrite Ec. destruct (in_range c i) eqn:Hi; [|by eexists].
  rewrite !decide_True by done. cbn [obind]. rewrite Ec. apply in_range_spec in Hi.
  rewrite (omap_list_ret _ (fun j => default 0 (r_cache st !! (Z.to_nat i * g_n g + j)%nat))).
  2:{ intros j Hj. apply elem_of_seq in Hj. unfold vat.
      destruct (lookup_lt_is_Some_2 (r_cache st) (Z.to_nat i * g_n g + j)) as [y ->]; [|done]. rewrite L. nia. }
  cbn [obind]. by eexists.
Qed.
Print Assumptions get_ith_stale_refuted.

(** ** Concrete cases *)

Definition ex_cells0 : cells := [Some (ex_sol (qz 1)); Some (ex_sol (qz 2))].
Definition ex_rm : rm := Rm ex_cells0 [] [] ∅.
Lemma ex_rm_ok : rm_ok (ex_cfg MolL false) ex_grid ex_rm.
Proof.
  split; [|done]. split; [done|].
  assert (H : forall v, wf_totals (ex_sol v)).
  { intros v. split.
    - apply ordb_ordered. reflexivity.
    - cbn [s_totals ex_sol]. intros n w Hin. unfold amount in Hin. rewrite !elem_of_cons, elem_of_nil in Hin.
      destruct Hin as [H|[H|[H|H]]]; [injection H as -> _..|done]; vm_compute; intuition lia. }
  repeat constructor; eexists; (split; [reflexivity|apply H]).
Qed.

(** All five components given, out of order and one twice. *)
Definition ex_calls : list call :=
  [SetIth 4%Z [qz 4; Q2Qc (7 # 2); 0; 0]; SetIth 0%Z [qz 1; qz 1; qz 1; qz 1]; SetIth 7%Z [];
   SetIth 2%Z [0; 0; 0; 0]; GetIth 1%Z; SetIth 1%Z [qz 50; qz 55; 0; 0]; SetIth 3%Z [qz 2; qz 3; 0; 0];
   SetIth 0%Z [qz 100; qz 110; 0; 0]].
Definition show (o : outcome rm) : option (list nat * list Q) :=
  match o with Ret st => Some (elements (r_set st), map this (r_cache st)) | _ => None end.
Example set_ith_case :
  let i := this inactive in
  show (obind (do_calls (ex_cfg MolL false) ex_grid ex_calls ex_rm) (run_cells (ex_cfg MolL false) ex_grid id)) =
  Some ([], [100; 110; 100; i;  50; 55; 50; i;  0; 0; 0; i;  2; 3; 2; i;  4; 7 # 2; 4; i]%Q).
Proof. vm_compute. reflexivity. Qed.
(** One of them left out: an exception. *)
Example set_ith_incomplete_case :
  obind (do_calls (ex_cfg MolL false) ex_grid (drop 1 ex_calls) ex_rm) (run_cells (ex_cfg MolL false) ex_grid id) = Throw.
Proof. vm_compute. reflexivity. Qed.
(** GetIthConcentration and GetConcentrations disagree after SetConcentrations. *)
Example get_ith_stale_case :
  exists st col out,
    obind (run_cells (ex_cfg MolL false) ex_grid id ex_rm) (do_set (ex_cfg MolL false) ex_grid ex_t) = Ret st /\
    get_ith (ex_cfg MolL false) ex_grid 0 st = Ret (Some col, st) /\
    get_concentrations (ex_cfg MolL false) ex_grid (r_cells st) [] = Ret out /\
    map this (take 1 col) = [222%Q] /\ map this (take 1 out) = [100%Q].
Proof. do 3 eexists. split_and!; [vm_compute; reflexivity..|]. vm_compute. reflexivity. Qed.
