(** Properties of tables and arrays in Python *)
From Coq Require Import ZArith String Lia Sorting.Sorted.
From stdpp Require Import prelude gmap stringmap.
From Verif.Base Require Import Result.
From Verif.Mapping Require Model Spec Props.
From Verif.Python Require Import Model Spec Proofs.
Local Open Scope Z_scope.

(** C106: the dictionary of GetBackwardMapping holds every row of the table under its number and nothing else, whatever
    the vectors held before. *)
Theorem python_backward back nback cells : Forall small back ->
  exists d, py_backward back nback cells = Some d /\ holds_rows d back.
Proof. apply py_backward_spec. Qed.

(** After a successful CreateMapping: the keys are the chemistry cells, and each has its cells of the grid in ascending order. *)
Theorem python_backward_cells s g s' :
  1 <= Mapping.Model.nthreads s -> Mapping.Model.create_mapping s g = (s', IRM_OK) -> small g ->
  exists d, py_backward (Mapping.Model.backward s') [] [] = Some d /\
    (forall k, is_Some (d !! k) <-> Z.of_nat k ∈ g) /\
    (forall k l, d !! k = Some l -> StronglySorted Z.lt l /\ forall i, i ∈ l <-> 0 <= i /\ g !! Z.to_nat i = Some (Z.of_nat k)).
Proof.
  intros Ht Em Hg. destruct (Mapping.Props.create_mapping_consistent s g s' Ht Em) as (_ & _ & Hk & Hl & Hb & _).
  assert (Hrow : forall k l, Mapping.Model.backward s' !! k = Some l ->
    l = Mapping.Spec.cells_of g (Z.of_nat k) /\ StronglySorted Z.lt l /\
    forall i, i ∈ l <-> 0 <= i /\ g !! Z.to_nat i = Some (Z.of_nat k)).
  { intros k l El. pose proof (lookup_lt_Some _ _ _ El) as Hlt.
    destruct (Hb (Z.of_nat k)) as (l' & El' & _ & Hc & Hs & Hm); [lia|]. rewrite Nat2Z.id in El'.
    assert (l' = l) as -> by congruence. done. }
  destruct (py_backward_spec (Mapping.Model.backward s') [] []) as (d & Ed & Hd).
  { apply Forall_lookup_2. intros k l El. destruct (Hrow k l El) as (-> & _).
    unfold small, Mapping.Spec.cells_of in *.
    pose proof (filter_length (fun i => g !! Z.to_nat i = Some (Z.of_nat k)) (Z.of_nat <$> seq 0 (length g))) as Hf.
    rewrite fmap_length, seq_length in Hf. lia. }
  exists d. split_and!; [done| |].
  - intros k. rewrite (Hd k), (Hk (Z.of_nat k)) by lia. rewrite lookup_lt_is_Some. lia.
  - intros k l El. rewrite (Hd k) in El. by destruct (Hrow k l El) as (_ & H).
Qed.
Example python_backward_example :
  exists s', Mapping.Model.create_mapping (Mapping.Model.MS 5 1 5 [] [] [] []) [1; -1; 0; 1; 0] = (s', IRM_OK) /\
    Mapping.Model.backward s' = [[2; 4]; [0; 3]] /\
    back_swig (Mapping.Model.backward s') [7] [8] = ([2; 2], [2; 4; 0; 3]).
Proof. eexists. split; [vm_compute; reflexivity|]. split; vm_compute; reflexivity. Qed.

(** The dictionary of GetSpeciesStoichiometry holds, for each species, each element with its coefficient, and nothing else. *)
Theorem python_stoichiometry {Q} names (st : list (list (string * Q))) species :
  length names = length st -> Forall small st -> NoDup names -> Forall (fun r => NoDup r.*1) st ->
  exists d, py_stoichiometry names st species [] [] [] = Some d /\ holds_species d names st.
Proof. apply py_stoichiometry_spec. Qed.
Example python_stoichiometry_example :
  let names := ["H2O"; "OH-"]%string in let st := [[("H", 2); ("O", 1)]; [("Charge", -1); ("H", 1); ("O", 1)]]%string in
  length names = length st /\ Forall small st /\ NoDup names /\ Forall (fun r => NoDup r.*1) st /\
  stoich_swig names st [] [] [] [] =
    Some (names, ([2; 3], ["H"; "O"; "Charge"; "H"; "O"]%string, [2; 1; -1; 1; 1])).
Proof.
  cbn zeta. split_and!; [done| | | |reflexivity].
  - repeat constructor.
  - apply (bool_decide_unpack _). reflexivity.
  - repeat (apply Forall_cons; split; [apply (bool_decide_unpack _); reflexivity|]). by apply Forall_nil.
Qed.

(** A vector of the module arrives as it is. A numpy array, list or tuple arrives, element by element, exactly if it is of integers that
    an int can hold and not empty. *)
Theorem python_int_vector v :
  (forall l, v = AVector l -> get_int_vector v = Vector l) /\
  (forall l zs, v = ANumpy l \/ v = AList l -> (get_int_vector v = Vector zs <-> zs <> [] /\ Forall2 is_int zs l)) /\
  (v = AOther -> get_int_vector v = AsItIs).
Proof.
  split_and!; [by intros l ->| |by intros ->].
  intros l zs Hv. assert (get_int_vector v = convert_elements l) as -> by (by destruct Hv as [-> | ->]).
  unfold convert_elements. destruct l as [|[z| |s] l].
  - split; [done|]. intros [Hne Hzs]. by apply Forall2_nil_inv_r in Hzs.
  - destruct (push_all_spec (PyInt z :: l) [] _ eq_refl) as [(zs' & Hzs & ->)|[-> Hno]].
    + cbn [app]. split.
      * intros H. assert (zs' = zs) as -> by congruence. split; [|done]. intros ->. by inversion Hzs.
      * intros [_ Hzs2]. f_equal. clear Hv. revert zs Hzs2.
        induction Hzs as [|x v' zs' l' [Hx _] Hzs IH]; intros zs Hzs2; [by apply Forall2_nil_inv_r in Hzs2|].
        apply Forall2_cons_inv_r in Hzs2 as (x2 & zs2 & [Hx2 _] & Hr & ->). f_equal; [congruence|by apply IH].
    + split; [done|]. intros [_ Hzs]. destruct Hno. by exists zs.
  - split; [done|]. intros [_ Hzs]. apply Forall2_cons_inv_r in Hzs as (x & zs' & [Hx _] & _). done.
  - split; [done|]. intros [_ Hzs]. apply Forall2_cons_inv_r in Hzs as (x & zs' & [Hx _] & _). done.
Qed.
Example python_int_vector_example :
  get_int_vector (AList [PyInt 3; PyInt (-1)]) = Vector [3; -1] /\ Forall2 is_int [3; -1] [PyInt 3; PyInt (-1)].
Proof. split; [reflexivity|]. repeat constructor; lia. Qed.

(** Refuted: GetSpeciesStoichiometrySWIG gives the present stoichiometry to a program that passes its vectors again. It adds to them, so
    what is read from the front is the old one. *)
Theorem stoichiometry_again_refuted :
  exists (names : list string) (st st' : list (list (string * Z))) nelt elts coef nelt' elts' coef',
    stoich_swig names st [] [] [] [] = Some (names, (nelt, elts, coef)) /\
    stoich_swig names st' names nelt elts coef = Some (names, (nelt', elts', coef')) /\
    length nelt' <> length names /\
    forall d, stoich_rows names 0 nelt' elts' coef' 0 ∅ = Some d -> ~ holds_species d names st'.
Proof.
  exists ["A"%string], [[("X"%string, 1)]], [[("Y"%string, 2)]]. do 6 eexists.
  split; [reflexivity|]. split; [reflexivity|]. split; [done|].
  intros d Hd [H _]. destruct (H 0%nat "A"%string [("Y"%string, 2)] eq_refl eq_refl) as (m & Hm & He).
  assert (Hy : m !! "Y"%string = Some 2) by (apply He; by left).
  assert (E : Z.to_nat (to_int 1) = 1%nat) by reflexivity. cbn in Hd. rewrite E in Hd. cbn in Hd.
  assert (d = <["A"%string := <["X"%string := 1]> ∅]> ∅) as -> by congruence.
  rewrite lookup_insert in Hm. assert (m = <["X"%string := 1]> ∅) as -> by congruence.
  by rewrite lookup_insert_ne in Hy by done.
Qed.

(** Refuted: every array of integers is taken, and others are refused. An empty one raises an exception; one that begins with an integer
    raises at the first other value; one that begins with another value is passed on as it is. *)
Theorem python_vector_refuted l :
  get_int_vector (AList []) = Raises /\ get_int_vector (ANumpy []) = Raises /\
  get_int_vector (AList (PyInt 1 :: PyFloat :: l)) = Raises /\
  get_int_vector (AList (PyFloat :: l)) = AsItIs.
Proof. done. Qed.

Print Assumptions python_backward.
Print Assumptions python_backward_cells.
Print Assumptions python_stoichiometry.
Print Assumptions python_int_vector.
Print Assumptions stoichiometry_again_refuted.
Print Assumptions python_vector_refuted.
