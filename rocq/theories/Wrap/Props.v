(** C79, C80: arrays of C and Fortran callers. *)
From Coq Require Import ZArith String QArith Qcanon Sorted.
From stdpp Require Import prelude strings.
From Verif.Base Require Import Result.
From Verif.Mapping Require Import Model Spec Props.
From Verif.SelOut Require Import Model Select.
From Verif.Solution Require Import Model.
From Verif.Conc Require Import Model Spec Props.
From Verif.Wrap Require Import Model Spec.
Local Close Scope Z_scope.
Local Close Scope Q_scope.
Local Close Scope Qc_scope.
Local Open Scope nat_scope.

Section lemmas.
  Context {A : Type}.
  Implicit Types v a : list A.

  Lemma overlay v a : length v <= length a -> overlaid v a (v ++ drop (length v) a).
  Proof.
    intros H. split_and!.
    - rewrite app_length, drop_length. lia.
    - intros i Hi. by rewrite lookup_app_l.
    - intros i Hi. rewrite lookup_app_r by done. rewrite lookup_drop. f_equal. lia.
  Qed.
  Lemma copy_out_ok v a : 0 < length v -> length v <= length a ->
    copy_out v (Some a) = Ret (Some (v ++ drop (length v) a)).
  Proof. intros. unfold copy_out. by rewrite decide_False, decide_True by lia. Qed.
  Lemma vec_resize_ok n (x : A) : (0 <= n)%Z -> vec_resize n x = Ret (replicate (Z.to_nat n) x).
  Proof. intros. unfold vec_resize. by rewrite decide_False by lia. Qed.
  Lemma offered_asked g k : Z.to_nat (asked g k) = offered g k.
  Proof. destruct g; cbn [asked offered doc_length]; rewrite ?Nat2Z.id; try done. f_equal. lia. Qed.
  Lemma asked_nonneg g k : (0 <= n_columns k)%Z -> (0 <= n_rows k)%Z -> (0 <= asked g k)%Z.
  Proof. intros. destruct g; cbn; lia. Qed.
End lemmas.

(** ** C79 *)

(** A result array of at least the documented length: on success it begins with the values of the
    method and nothing behind them is touched; if the method fails it is left alone. Both languages,
    all functions. *)
Theorem get_array_fills {A} (zero inactive : A) l g k meth a r v :
  (0 <= n_columns k)%Z -> (0 <= n_rows k)%Z ->
  meth (replicate (offered g k) zero) = Ret (r, v) ->
  (r = IRM_OK -> length v = doc_length g k) -> (shape_of g <> OnOk -> r = IRM_OK) ->
  0 < doc_length g k -> doc_length g k <= length a ->
  exists a', get_array zero inactive l g (Some (k, meth)) (Some a) = Ret (r, Some a') /\
    (r = IRM_OK -> overlaid v a a') /\ (r <> IRM_OK -> a' = a).
Proof.
  intros Hc Hr Em Hl Hs Hpos Hlen. unfold get_array, get_body.
  rewrite (vec_resize_ok _ _ (asked_nonneg g k Hc Hr)), offered_asked. cbn [obind]. rewrite Em. cbn [obind].
  destruct (decide (r = IRM_OK)) as [->|Hno].
  - specialize (Hl eq_refl).
    assert (Ec : copy_out v (Some a) = Ret (Some (v ++ drop (length v) a))) by (apply copy_out_ok; lia).
    exists (v ++ drop (length v) a). split; [|split; [intros _; apply overlay; lia|done]].
    destruct (shape_of g) eqn:Eg.
    + by rewrite Ec.
    + rewrite decide_True by (rewrite Hl; by destruct g). by rewrite Ec.
    + rewrite decide_True by (rewrite Hl; by destruct g). by rewrite Ec.
    + assert (g = Gfw) as -> by (by destruct g). cbn in Hpos, Hl. rewrite decide_False by lia.
      rewrite decide_True by lia. rewrite take_ge by lia. by rewrite Ec.
    + by rewrite Ec.
  - destruct (shape_of g) eqn:Eg; [|by destruct Hno; apply Hs..].
    by exists a.
Qed.
Print Assumptions get_array_fills.

(** An argument array of at least the documented length: the method is given exactly the documented
    number of elements, in order, and its outcome is that of the call. *)
Theorem set_array_reads {A M} l s dim k (meth : list A -> M -> outcome (irm_result * M)) a m :
  0 < doc_argument s k dim -> doc_argument s k dim <= length a ->
  exists v, begins (doc_argument s k dim) a v /\
    set_array l s (Z.of_nat dim) (Some (k, meth)) (Some a) m = meth v m.
Proof.
  intros Hpos Hlen. exists (take (doc_argument s k dim) a). split.
  - split; [rewrite take_length; lia|]. intros i Hi. by apply lookup_take.
  - unfold set_array, set_body.
    assert (E : taken s k (Z.of_nat dim) = Z.of_nat (doc_argument s k dim)) by (by destruct s).
    rewrite E, decide_False, Nat2Z.id by lia. unfold copy_in.
    by rewrite decide_False, decide_True by lia.
Qed.
Print Assumptions set_array_reads.

(** No instance: nothing is read or written, whatever the pointer. *)
Theorem array_no_instance {A M} (zero inactive : A) l g s dim p (m : M) :
  get_array zero inactive l g None p = Ret (IRM_BADINSTANCE, p) /\
  set_array (A := A) l s dim None p m = Ret (IRM_BADINSTANCE, m).
Proof. done. Qed.
Print Assumptions array_no_instance.

(** NULL from C: the functions outside two lists answer IRM_INVALIDARG and do nothing. *)
Theorem array_null {A M} (zero inactive : A) g s dim k meth meth' (m : M) :
  (g ∉ unguarded_getters -> get_array zero inactive C g (Some (k, meth)) None = Ret (IRM_INVALIDARG, None)) /\
  (s ∉ unguarded_setters ->
     set_array (A := A) C s dim (Some (k, meth')) None m = Ret (IRM_INVALIDARG, m)) /\
  set_array (A := A) F SpeciesConcentrations2Module dim (Some (k, meth')) None m = Ret (IRM_INVALIDARG, m).
Proof.
  unfold unguarded_getters, unguarded_setters. split; [|split; [|done]]; intros H.
  - destruct g; try reflexivity; by destruct H; rewrite !elem_of_cons; tauto.
  - destruct s; try reflexivity; by destruct H; rewrite !elem_of_cons; tauto.
Qed.
Print Assumptions array_null.

(** Those in the lists, and everything from Fortran except SpeciesConcentrations2Module, write to or
    read from address 0. *)
Theorem array_null_refuted {A M} (zero inactive : A) l g s dim k meth meth' v (m : M) :
  (0 <= n_columns k)%Z -> (0 <= n_rows k)%Z ->
  (g ∈ unguarded_getters \/ l = F ->
     meth (replicate (offered g k) zero) = Ret (IRM_OK, v) ->
     length v = doc_length g k -> 0 < doc_length g k ->
     get_array zero inactive l g (Some (k, meth)) None = UB) /\
  (s ∈ unguarded_setters \/ (l = F /\ s <> SpeciesConcentrations2Module) ->
     set_array (A := A) l s (Z.of_nat dim) (Some (k, meth')) None m = UB).
Proof.
  intros Hc Hr. split.
  - intros Hg Em Hl Hpos. unfold get_array.
    assert (get_null_checked l g = false) as ->.
    { destruct Hg as [Hg| ->]; [|done]. unfold unguarded_getters in Hg. rewrite !elem_of_cons in Hg.
      destruct l; [|done]. destruct g; try done; exfalso; set_solver. }
    unfold get_body. rewrite (vec_resize_ok _ _ (asked_nonneg g k Hc Hr)), offered_asked. cbn [obind]. rewrite Em. cbn [obind].
    assert (Ec : copy_out v None = UB) by (unfold copy_out; by rewrite decide_False by lia).
    destruct (shape_of g) eqn:Eg.
    + by rewrite decide_True, Ec by done.
    + rewrite decide_True by (rewrite Hl; by destruct g). by rewrite Ec.
    + rewrite decide_True by (rewrite Hl; by destruct g). by rewrite Ec.
    + assert (g = Gfw) as -> by (by destruct g). cbn in Hpos, Hl. rewrite decide_False by lia.
      rewrite decide_True by lia. rewrite take_ge by lia. by rewrite Ec.
    + by rewrite Ec.
  - intros Hs. unfold set_array.
    assert (set_null_checked l s = false) as ->.
    { destruct Hs as [Hs|[-> Hs]]; [|by destruct s]. unfold unguarded_setters in Hs. rewrite !elem_of_cons in Hs.
      destruct l, s; try done; exfalso; set_solver. }
    unfold set_body. assert (~ (taken s k (Z.of_nat dim) < 0)%Z) by (destruct s; cbn; lia).
    rewrite decide_False by done. unfold copy_in. by case_decide.
Qed.
Print Assumptions array_null_refuted.

(** The method's vector does not cover the grid (the members are filled in on the root process only):
    three functions fill the array with the inactive value, four return IRM_FAIL with the array as it
    was -- the inactive values go to a local vector. *)
Theorem array_not_covering {A} (zero inactive : A) l g k meth a r v :
  meth [] = Ret (r, v) -> length v <> n_xyz k -> n_xyz k <= length a ->
  (shape_of g = OrFill -> exists a',
     get_array zero inactive l g (Some (k, meth)) (Some a) = Ret (IRM_FAIL, Some a') /\
     overlaid (replicate (n_xyz k) inactive) a a').
Proof.
  intros Em Hne Hlen Hg. unfold get_array, get_body.
  assert (asked g k = 0%Z) as -> by (by destruct g).
  rewrite vec_resize_ok by done. change (replicate (Z.to_nat 0) zero) with (@nil A). cbn [obind]. rewrite Em. cbn [obind]. rewrite Hg.
  rewrite decide_False by done. unfold fill_out. case_decide as H0.
  - exists a. split; [done|]. rewrite H0. split_and!; [done| |done]. cbn. lia.
  - rewrite decide_True by lia. eexists. split; [reflexivity|].
    replace (drop (n_xyz k) a) with (drop (length (replicate (n_xyz k) inactive)) a) by (by rewrite replicate_length).
    apply overlay. by rewrite replicate_length.
Qed.
Print Assumptions array_not_covering.

Theorem array_not_filled_refuted {A} (zero inactive : A) l g k meth a r v :
  g = Porosity \/ g = Pressure \/ g = Temperature \/ g = Viscosity ->
  meth [] = Ret (r, v) -> length v <> n_xyz k ->
  get_array zero inactive l g (Some (k, meth)) (Some a) = Ret (IRM_FAIL, Some a).
Proof.
  intros Hg Em Hne. unfold get_array, get_body.
  assert (asked g k = 0%Z /\ shape_of g = OrResize) as [-> ->] by (by destruct_or! Hg; subst g).
  rewrite vec_resize_ok by done. change (replicate (Z.to_nat 0) zero) with (@nil A). cbn [obind]. rewrite Em. cbn [obind].
  by rewrite decide_False by done.
Qed.
Print Assumptions array_not_filled_refuted.

(** No table is chosen (C77): GetSelectedOutputColumnCount is negative, the wrappers make a vector of a
    negative number of elements and the exception leaves the C or Fortran function, whatever the
    array. *)
Theorem selected_output_throws_refuted {A D} (zero inactive : A) l k meth p (s : sel D) :
  current s = None -> n_columns k = so_columns s -> n_rows k = Z.of_nat (so_rows (n_xyz k)) -> 0 < n_xyz k ->
  p <> None \/ l = F ->
  get_array zero inactive l SelectedOutput (Some (k, meth)) p = Throw.
Proof.
  intros Hs Hc Hr Hn Hp. unfold so_columns in Hc. rewrite Hs in Hc.
  assert (E : get_body zero inactive SelectedOutput k meth p = Throw).
  { unfold get_body, vec_resize, asked. rewrite Hc, Hr. unfold so_rows, irm_invalidarg.
    rewrite decide_True; [done|]. lia. }
  unfold get_array. destruct p as [a|]; [exact E|]. destruct Hp as [[]| ->]; done.
Qed.
Print Assumptions selected_output_throws_refuted.

(** A count of zero -- concentrations before FindComponents, gases without a gas phase, charges
    without saved species: the address of the first element of an empty vector is taken. *)
Theorem array_empty_refuted {A M} (zero inactive : A) l g s k meth meth' r a (m : M) :
  (meth [] = Ret (r, []) -> r = IRM_OK -> g <> Gfw -> offered g k = 0 -> doc_length g k = 0 ->
     (0 <= n_rows k * n_columns k)%Z ->
     shape_of g = OnOk \/ shape_of g = Whole ->
     get_array zero inactive l g (Some (k, meth)) (Some a) = UB) /\
  (doc_argument s k 0 = 0 -> set_array (A := A) l s 0 (Some (k, meth')) (Some a) m = UB).
Proof.
  split.
  - intros Em -> Hg Hk _ Hnn Hsh. unfold get_array, get_body.
    assert (asked g k = 0%Z) as ->.
    { destruct (decide (asked g k < 0)%Z) as [Hn|Hn]; [|rewrite <- offered_asked in Hk; lia].
      destruct g; cbn [asked] in Hn; lia. }
    rewrite vec_resize_ok by done.
    change (replicate (Z.to_nat 0) zero) with (@nil A). cbn [obind]. rewrite Em. cbn [obind]. by destruct Hsh as [-> | ->].
  - intros H0. unfold set_array, set_body.
    assert (E : taken s k 0 = Z.of_nat (doc_argument s k 0)) by (by destruct s).
    by rewrite E, H0.
Qed.
Print Assumptions array_empty_refuted.

(** A negative number of cells for RM_InitialPhreeqcCell2Module: the exception leaves the function. *)
Theorem cell2module_negative_refuted {A M} l dim k meth (a : list A) (m : M) : (dim < 0)%Z ->
  set_array l InitialPhreeqcCell2Module dim (Some (k, meth)) (Some a) m = Throw.
Proof. intros H. unfold set_array, set_body. cbn [taken]. by rewrite decide_True. Qed.
Print Assumptions cell2module_negative_refuted.

(** RM_GetBackwardMapping after a successful CreateMapping: the user cells of a chemistry cell in
    ascending order, and their number; a number of cells that is too small, or no such chemistry cell,
    changes nothing. *)
Theorem backward_list s g s' n a size :
  (1 <= nthreads s)%Z -> create_mapping s g = (s', IRM_OK) -> (size <= Z.of_nat (length a))%Z ->
  exists r a' size', get_backward (Some s') n (Some a) size = Ret (r, Some a', size') /\
    (r = IRM_OK \/ r = IRM_INVALIDARG) /\
    (r = IRM_OK <-> (0 <= n < count_chemistry s')%Z /\
       exists l, backward s' !! Z.to_nat n = Some l /\ (Z.of_nat (length l) <= size)%Z) /\
    (r <> IRM_OK -> a' = a /\ size' = size) /\
    (r = IRM_OK -> exists l, overlaid l a a' /\ size' = Z.of_nat (length l) /\
       StronglySorted Z.lt l /\ forall i, i ∈ l <-> (0 <= i)%Z /\ g !! Z.to_nat i = Some n).
Proof.
  intros Ht Em Hsz. destruct (create_mapping_consistent s g s' Ht Em) as (_ & _ & _ & _ & Hb & _).
  unfold get_backward. case_decide as Hn.
  - destruct (Hb n Hn) as (l & El & _ & _ & Hsort & Hmem). rewrite El. case_decide as Hl.
    + rewrite decide_True by lia. do 3 eexists. split; [reflexivity|]. split_and!; [by left| |done|].
      * split; [|done]. intros _. eauto.
      * intros _. exists l. split_and!; [apply overlay; lia|done|done|done].
    + do 3 eexists. split; [reflexivity|]. split_and!; [by right| |done|done].
      split; [done|]. intros (_ & l' & [= <-] & ?). lia.
  - do 3 eexists. split; [reflexivity|]. split_and!; [by right| |done|done]. split; [done|]. by intros [? _].
Qed.
Print Assumptions backward_list.

(** ** C80 *)

Lemma element_in {A} (t : array2 A) i j : i < a_d1 t -> j < a_d2 t -> element t i j = a_el t !! (i + j * a_d1 t).
Proof. intros. unfold element. by rewrite decide_True. Qed.
Lemma pos2 n1 n2 i j : i < n1 -> j < n2 -> i + j * n1 < n1 * n2.
Proof. intros. nia. Qed.
Lemma table_facts g k : table_getter g -> (0 <= n_columns k)%Z -> n_rows k = Z.of_nat (n_xyz k) ->
  doc_length g k = n_xyz k * doc_columns g k /\ cols g k = Z.of_nat (doc_columns g k) /\ shape_of g = OnOk.
Proof. intros. destruct g; try done; cbn; split_and!; try done; lia. Qed.
Lemma set_table_facts s k : table_setter s ->
  doc_argument s k 0 = n_xyz k * doc_set_columns s k /\ set_cols s k = Z.of_nat (doc_set_columns s k) /\
  f90_checked s = true.
Proof. by destruct s. Qed.

(** A result table that has exactly the documented extents, or too few rows or another number of
    columns: afterwards it has the documented extents and element (i, j) is value i of column j. *)
Theorem f90_table {A} (zero inactive junk : A) g k meth t v :
  table_getter g -> (0 <= n_columns k)%Z -> n_rows k = Z.of_nat (n_xyz k) ->
  meth (replicate (offered g k) zero) = Ret (IRM_OK, v) ->
  length v = doc_length g k -> 0 < doc_length g k -> wf2 t ->
  a_d1 t <= n_xyz k \/ a_d2 t <> doc_columns g k ->
  exists t', f90_get2 zero inactive junk g k meth (Some t) = Ret (IRM_OK, t') /\ wf2 t' /\
    a_d1 t' = n_xyz k /\ a_d2 t' = doc_columns g k /\
    forall i j, i < n_xyz k -> j < doc_columns g k -> element t' i j = v !! (i + j * n_xyz k).
Proof.
  intros Hg Hc Hr Em Hl Hpos Hw Hd. destruct (table_facts g k Hg Hc Hr) as (Hdl & Hcol & Hsh).
  assert (exists a, allocate_double_2d junk (Some t) (Z.of_nat (n_xyz k)) (cols g k) = Ret a /\
            wf2 a /\ a_d1 a = n_xyz k /\ a_d2 a = doc_columns g k) as (a & Ea & Wa & E1 & E2).
  { unfold allocate_double_2d. rewrite Hcol. case_decide as Hcase.
    - eexists. split; [reflexivity|]. unfold allocate2, wf2. cbn [a_el a_d1 a_d2]. rewrite !Nat2Z.id.
      by rewrite replicate_length.
    - exists t. split_and!; [done..| |]; destruct (decide (a_d2 t = doc_columns g k)); lia. }
  destruct (get_array_fills zero inactive F g k meth (a_el a) IRM_OK v) as (e & Ee & Ho & _); try done; [lia|..].
  { rewrite Wa, E1, E2. lia. }
  destruct (Ho eq_refl) as (L & Hin & _).
  exists (Array2 (a_d1 a) (a_d2 a) e). unfold f90_get2. rewrite Ea. cbn [obind]. rewrite Ee. cbn [obind].
  split_and!; try done.
  - unfold wf2. cbn [a_el a_d1 a_d2]. by rewrite L.
  - intros i j Hi Hj. rewrite element_in by (cbn [a_d1 a_d2]; lia). cbn [a_el a_d1]. rewrite E1. apply Hin.
    rewrite Hl, Hdl. by apply pos2.
Qed.
Print Assumptions f90_table.

(** A result table with the right number of columns and more rows than there are cells is kept. The
    values are then laid out with the number of cells, not with the number of rows: element (i, j) is
    the value at position i + j * rows. *)
Theorem f90_table_larger {A} (zero inactive junk : A) g k meth t v :
  table_getter g -> (0 <= n_columns k)%Z -> n_rows k = Z.of_nat (n_xyz k) ->
  meth (replicate (offered g k) zero) = Ret (IRM_OK, v) ->
  length v = doc_length g k -> 0 < doc_length g k -> wf2 t ->
  n_xyz k <= a_d1 t -> a_d2 t = doc_columns g k ->
  exists t', f90_get2 zero inactive junk g k meth (Some t) = Ret (IRM_OK, t') /\ wf2 t' /\
    a_d1 t' = a_d1 t /\ a_d2 t' = a_d2 t /\
    forall i j, i < a_d1 t -> j < a_d2 t ->
      element t' i j = if decide (i + j * a_d1 t < length v) then v !! (i + j * a_d1 t) else element t i j.
Proof.
  intros Hg Hc Hr Em Hl Hpos Hw Hd1 Hd2. destruct (table_facts g k Hg Hc Hr) as (Hdl & Hcol & Hsh).
  destruct (get_array_fills zero inactive F g k meth (a_el t) IRM_OK v) as (e & Ee & Ho & _); try done; [lia|..].
  { rewrite Hw, Hd2. nia. }
  destruct (Ho eq_refl) as (L & Hin & Hout).
  exists (Array2 (a_d1 t) (a_d2 t) e). unfold f90_get2, allocate_double_2d. rewrite Hcol, decide_False by lia.
  cbn [obind]. rewrite Ee. cbn [obind]. split_and!; try done.
  - unfold wf2. cbn [a_el a_d1 a_d2]. by rewrite L.
  - intros i j Hi Hj. rewrite !element_in by (cbn [a_d1 a_d2]; lia). cbn [a_el a_d1]. case_decide.
    + by apply Hin.
    + apply Hout. lia.
Qed.
Print Assumptions f90_table_larger.

(** So the first value of the second column is not where it belongs, whenever the values differ. *)
Theorem f90_table_rows_refuted {A} (zero inactive junk : A) g k meth t v :
  table_getter g -> (0 <= n_columns k)%Z -> n_rows k = Z.of_nat (n_xyz k) ->
  meth (replicate (offered g k) zero) = Ret (IRM_OK, v) ->
  length v = doc_length g k -> 0 < n_xyz k -> 2 <= doc_columns g k -> wf2 t -> NoDup v ->
  n_xyz k < a_d1 t < length v -> a_d2 t = doc_columns g k ->
  exists t', f90_get2 zero inactive junk g k meth (Some t) = Ret (IRM_OK, t') /\
    exists x, v !! (0 + 1 * n_xyz k) = Some x /\ element t' 0 1 <> Some x.
Proof.
  intros Hg Hc Hr Em Hl Hn H2 Hw Hnd [Hlo Hhi] Hd2. destruct (table_facts g k Hg Hc Hr) as (Hdl & _ & _).
  destruct (f90_table_larger zero inactive junk g k meth t v) as (t' & Et & _ & _ & _ & He); try done; [nia|lia|].
  exists t'. split; [done|].
  destruct (lookup_lt_is_Some_2 v (0 + 1 * n_xyz k)) as [x Hx]; [nia|]. exists x. split; [done|].
  rewrite He by lia. rewrite decide_True by lia. intros Hx'.
  assert (0 + 1 * a_d1 t = 0 + 1 * n_xyz k) by (by eapply NoDup_lookup). lia.
Qed.
Print Assumptions f90_table_rows_refuted.

(** The extents of a table that has not been allocated are asked before whether it is allocated. *)
Theorem f90_table_unallocated_refuted {A} (zero inactive junk : A) g k meth :
  f90_get2 zero inactive junk g k meth None = UB.
Proof. done. Qed.
Print Assumptions f90_table_unallocated_refuted.

(** Result arrays of rank 1, allocated or not (the two integer ones allocated): exactly the documented
    length and the values. *)
Theorem f90_vector {A} (zero inactive junk : A) g k meth t v :
  ~ table_getter g -> meth (replicate (offered g k) zero) = Ret (IRM_OK, v) ->
  length v = doc_length g k -> 0 < doc_length g k ->
  (g = StartCell \/ g = EndCell -> t <> None) ->
  f90_get1 zero inactive junk g k meth t = Ret (IRM_OK, v).
Proof.
  intros Hg Em Hl Hpos Ht.
  assert (Hlen : length1 g k = Z.of_nat (doc_length g k)) by (by destruct g).
  assert (exists a, (if integer_getter g then allocate_integer_1d else allocate_double_1d) junk t (length1 g k) = Ret a /\
            length a = doc_length g k) as (a & Ea & La).
  { rewrite Hlen. unfold allocate_integer_1d, allocate_double_1d.
    destruct t as [a|].
    - destruct (integer_getter g); case_decide as Hd; eexists; (split; [reflexivity|]); rewrite ?replicate_length; lia.
    - destruct g; try done; try (destruct Ht; tauto); eexists; (split; [reflexivity|]); rewrite replicate_length; lia. }
  unfold f90_get1. rewrite Ea. cbn [obind].
  assert (E : exists a', get_array zero inactive F g (Some (k, meth)) (Some a) = Ret (IRM_OK, Some a') /\ overlaid v a a').
  { set (k' := Counts (n_xyz k) (n_comps k) (n_gas k) (n_species k) (n_workers k) 0 0).
    assert (Eg : get_array zero inactive F g (Some (k, meth)) (Some a) = get_array zero inactive F g (Some (k', meth)) (Some a))
      by (by destruct g).
    rewrite Eg. destruct (get_array_fills zero inactive F g k' meth a IRM_OK v) as (a' & Ea' & Ho & _); try done.
    - by destruct g.
    - intros _. by destruct g.
    - by destruct g.
    - rewrite La. by destruct g.
    - exists a'. split; [done|by apply Ho]. }
  destruct E as (a' & Ea' & L & Hin & _). rewrite Ea'. cbn [obind]. do 2 f_equal.
  apply list_eq_same_length with (length v); [done|lia|].
  intros i x y Hi Hx Hy. rewrite Hin in Hx by lia. congruence.
Qed.
Print Assumptions f90_vector.

(** The start and end cells need an allocated array. *)
Theorem f90_cells_unallocated_refuted {A} (zero inactive junk : A) g k meth : g = StartCell \/ g = EndCell ->
  f90_get1 zero inactive junk g k meth None = UB.
Proof. by intros [-> | ->]. Qed.
Print Assumptions f90_cells_unallocated_refuted.

(** An argument table with the documented extents: the method is given value i of column j at
    position i + j * cells, with or without checks. *)
Theorem f90_set_table {A M} debug s k (meth : list A -> M -> outcome (irm_result * M)) t m :
  table_setter s -> wf2 t -> a_d1 t = n_xyz k -> a_d2 t = doc_set_columns s k -> 0 < doc_argument s k 0 ->
  exists v, length v = doc_argument s k 0 /\
    (forall i j, i < n_xyz k -> j < doc_set_columns s k -> v !! (i + j * n_xyz k) = element t i j) /\
    f90_set2 debug s k meth t m = obind (meth v m) (fun x => Ret (Back x)).
Proof.
  intros Hs Hw H1 H2 Hpos. destruct (set_table_facts s k Hs) as (Hd & Hc & Hk).
  destruct (set_array_reads F s 0 k meth (a_el t) m) as (v & [Lv Hv] & E); [done|rewrite Hw, H1, H2; lia|].
  exists v. split_and!; [done| |].
  - intros i j Hi Hj. rewrite element_in by lia. rewrite H1. apply Hv. rewrite Hd. by apply pos2.
  - unfold f90_set2. assert (chk_2d t (Z.of_nat (n_xyz k)) (set_cols s k) = 0) as ->.
    { unfold chk_2d. rewrite Hc, !decide_False by lia. done. }
    rewrite bool_decide_eq_true_2 by done. rewrite andb_false_r. change (Z.of_nat 0) with 0%Z in E. by rewrite E.
Qed.
Print Assumptions f90_set_table.

(** With the checks, a table with another number of columns or too few rows ends the program; any
    other is read inside its bounds. *)
Theorem f90_set_checked {A M} s k (meth : list A -> M -> outcome (irm_result * M)) t m :
  table_setter s -> wf2 t -> 0 < doc_argument s k 0 ->
  (f90_set2 true s k meth t m = Ret Abort /\ (a_d2 t <> doc_set_columns s k \/ a_d1 t < n_xyz k)) \/
  (a_d2 t = doc_set_columns s k /\ n_xyz k <= a_d1 t /\
   exists v, begins (doc_argument s k 0) (a_el t) v /\
     f90_set2 true s k meth t m = obind (meth v m) (fun x => Ret (Back x))).
Proof.
  intros Hs Hw Hpos. destruct (set_table_facts s k Hs) as (Hd & Hc & Hk).
  unfold f90_set2. rewrite Hk, andb_true_l. unfold chk_2d. rewrite Hc.
  destruct (decide (a_d2 t = doc_set_columns s k)) as [H2|H2].
  - destruct (decide (n_xyz k <= a_d1 t)) as [H1|H1].
    + right. rewrite !decide_False by lia. cbn [Nat.add]. rewrite bool_decide_eq_true_2 by done. cbn [negb].
      split_and!; [done..|].
      destruct (set_array_reads F s 0 k meth (a_el t) m) as (v & Hv & E); [done|rewrite Hw, H2; nia|].
      exists v. split; [done|]. change (Z.of_nat 0) with 0%Z in E. by rewrite E.
    + left. rewrite (decide_True (P := (Z.of_nat (a_d1 t) < _)%Z)) by lia. rewrite bool_decide_eq_false_2 by lia.
      split; [done|]. right. lia.
  - left. rewrite (decide_True (P := Z.of_nat (a_d2 t) <> _)) by lia. rewrite bool_decide_eq_false_2 by lia.
    split; [done|]. by left.
Qed.
Print Assumptions f90_set_checked.

(** More rows than cells pass the checks, and the second column is read from the wrong place. *)
Theorem f90_set_rows_refuted {A M} debug s k (meth : list A -> M -> outcome (irm_result * M)) t m :
  table_setter s -> wf2 t -> 0 < n_xyz k -> 2 <= doc_set_columns s k -> n_xyz k < a_d1 t ->
  a_d2 t = doc_set_columns s k -> NoDup (a_el t) ->
  exists v, f90_set2 debug s k meth t m = obind (meth v m) (fun x => Ret (Back x)) /\
    length v = n_xyz k * doc_set_columns s k /\
    v !! (0 + 1 * n_xyz k) = element t (n_xyz k) 0 /\ v !! (0 + 1 * n_xyz k) <> element t 0 1.
Proof.
  intros Hs Hw Hn H2 H1 Hd2 Hnd. destruct (set_table_facts s k Hs) as (Hd & Hc & Hk).
  destruct (set_array_reads F s 0 k meth (a_el t) m) as (v & [Lv Hv] & E); [rewrite Hd; nia|rewrite Hw, Hd, Hd2; nia|].
  change (Z.of_nat 0) with 0%Z in E.
  exists v. split_and!.
  - unfold f90_set2. assert (chk_2d t (Z.of_nat (n_xyz k)) (set_cols s k) = 0) as ->.
    { unfold chk_2d. rewrite Hc, !decide_False by lia. done. }
    rewrite bool_decide_eq_true_2 by done. rewrite andb_false_r. by rewrite E.
  - lia.
  - rewrite Hv by (rewrite Hd; nia). rewrite element_in by lia. done.
  - rewrite Hv by (rewrite Hd; nia). rewrite element_in by lia.
    destruct (lookup_lt_is_Some_2 (a_el t) (0 + 1 * n_xyz k)) as [x Hx]; [rewrite Hw; nia|].
    rewrite Hx. intros Hx'. symmetry in Hx'.
    assert (0 + 1 * a_d1 t = 0 + 1 * n_xyz k) by (by eapply NoDup_lookup). lia.
Qed.
Print Assumptions f90_set_rows_refuted.

(** Without the checks, or in the functions that have none, a short array is read past its end. *)
Theorem f90_set_short_refuted {A M} debug s dim k (meth : list A -> M -> outcome (irm_result * M)) t m :
  debug = false \/ s = SetIthConcentration \/ s = SetIthSpeciesConcentration \/ s = InitialSolutions2Module ->
  length t < doc_argument s k dim ->
  f90_set1 debug s (Z.of_nat dim) k meth t m = UB.
Proof.
  intros Hb Hlen. unfold f90_set1.
  assert (debug && f90_checked s = false) as ->.
  { destruct Hb as [-> |[-> |[-> | ->]]]; [done|..]; by rewrite andb_false_r. }
  cbn [andb]. unfold set_array, set_body.
  assert (E : taken s k (Z.of_nat dim) = Z.of_nat (doc_argument s k dim)) by (by destruct s).
  rewrite E, decide_False, Nat2Z.id by lia. unfold copy_in. by rewrite !decide_False by lia.
Qed.
Print Assumptions f90_set_short_refuted.

(** RM_GetBackwardMapping of the Fortran module after a successful CreateMapping: for a chemistry cell
    of at most 1000 user cells, exactly those. *)
Theorem f90_backward_list junk s g s' n l :
  (1 <= nthreads s)%Z -> create_mapping s g = (s', IRM_OK) -> (0 <= n < count_chemistry s')%Z ->
  backward s' !! Z.to_nat n = Some l -> length l <= 1000 ->
  f90_backward junk (Some s') n = Ret (IRM_OK, l) /\
  forall i, i ∈ l <-> (0 <= i)%Z /\ g !! Z.to_nat i = Some n.
Proof.
  intros Ht Em Hn El Hl. destruct (create_mapping_consistent s g s' Ht Em) as (_ & _ & _ & _ & Hb & _).
  destruct (Hb n Hn) as (l' & El' & _ & _ & _ & Hmem). rewrite El in El'. injection El' as <-.
  split; [|done]. unfold f90_backward, get_backward. rewrite decide_True by done. rewrite El.
  rewrite decide_True by lia. rewrite decide_True by (rewrite replicate_length; lia). cbn [obind].
  rewrite Nat2Z.id. rewrite decide_True by (rewrite app_length; lia). by rewrite take_app.
Qed.
Print Assumptions f90_backward_list.

(** A chemistry cell of more than 1000 user cells, or no such cell: IRM_INVALIDARG and a list of 1000
    undefined numbers. *)
Theorem f90_backward_refuted junk s n :
  (forall l, (0 <= n < count_chemistry s)%Z -> backward s !! Z.to_nat n = Some l -> 1000 < length l) ->
  ((0 <= n < count_chemistry s)%Z -> is_Some (backward s !! Z.to_nat n)) ->
  f90_backward junk (Some s) n = Ret (IRM_INVALIDARG, replicate 1000 junk).
Proof.
  intros Hl Hs.
  assert (E : get_backward (Some s) n (Some (replicate 1000 junk)) 1000 =
                Ret (IRM_INVALIDARG, Some (replicate 1000 junk), 1000%Z)).
  { unfold get_backward. case_decide as Hn; [|done]. destruct (Hs Hn) as [l El]. rewrite El.
    specialize (Hl l Hn El). by rewrite decide_False by lia. }
  unfold f90_backward. rewrite E. cbn [obind].
  assert (Hk : Z.to_nat 1000 = length (replicate 1000 junk)) by (rewrite replicate_length; lia).
  rewrite Hk, decide_True by lia. by rewrite firstn_all.
Qed.
Print Assumptions f90_backward_refuted.

(** ** With the model of the concentrations (C09-C14) *)

(** The two methods; an exception inside GetConcentrations becomes IRM_FAIL. *)
Definition conc_get (c : cfg) (g : grid) (m : cells) (old : list Qc) : outcome (irm_result * list Qc) :=
  match get_concentrations c g m old with
  | Ret v => Ret (IRM_OK, v) | Throw => Ret (IRM_FAIL, old) | UB => UB
  end.
Definition conc_set (c : cfg) (g : grid) (t : list Qc) (m : cells) : outcome (irm_result * cells) :=
  obind (set_concentrations c g t m) (fun m' => Ret (IRM_OK, m')).
Definition conc_counts (c : cfg) (g : grid) : counts := Counts (g_n g) (length (c_comps c)) 0 0 1 0 (Z.of_nat (g_n g)).

(** A Fortran program sets concentrations from c(cells, components), with or without checks, and reads
    them into an allocated table that does not have too many rows: c2(i, j) is what was set in
    c(r, j), r the cell that stands for i (amounts below 1e-25 moles read as zero). *)
Theorem f90_round_trip debug zero junk c g m t t2 :
  grid_ok g -> cfg_ok c -> c_h2o c = false -> c_calc c = false ->
  length m = length (g_back g) -> Forall is_Some m -> (forall j gc, rep g j gc -> wet g gc) ->
  0 < g_n g -> wf2 t -> a_d1 t = g_n g -> a_d2 t = length (c_comps c) ->
  wf2 t2 -> a_d1 t2 <= g_n g \/ a_d2 t2 <> length (c_comps c) ->
  exists m' t2', f90_set2 debug SetConcentrations (conc_counts c g) (conc_set c g) t m = Ret (Back (IRM_OK, m')) /\
    f90_get2 zero inactive junk Concentrations (conc_counts c g) (conc_get c g m') (Some t2) = Ret (IRM_OK, t2') /\
    a_d1 t2' = g_n g /\ a_d2 t2' = length (c_comps c) /\
    forall j gc gc' por sat rv dens k gf x,
      rep g j gc -> covers g j gc' ->
      g_por g !! gc = Some por -> g_sat g !! gc = Some sat -> g_rv g !! gc = Some rv -> g_dens g !! gc = Some dens ->
      c_gfw c !! k = Some gf -> element t gc k = Some x ->
      element t2' gc' k =
        Some (if decide (k < 3)%nat then x else kept (moles_in (c_unit c) gf dens (por * sat * rv)%Qc x) x).
Proof.
  intros Hg Hc Hh Hcalc Hl Hm Hwet Hn Hw H1 H2 Hw2 Hd.
  assert (Hcomp : 0 < length (c_comps c)).
  { destruct Hc as ([Hf _] & _). unfold fixed in Hf. rewrite Hh in Hf. lia. }
  destruct (f90_set_table debug SetConcentrations (conc_counts c g) (conc_set c g) t m) as (v & Lv & Hv & Es);
    try done; [cbn; nia|].
  cbn [doc_argument doc_set_columns conc_counts n_xyz n_comps] in Lv, Hv.
  destruct (set_then_get c g v m (replicate (g_n g * length (c_comps c)) zero)) as (m' & out & Em & Eo & Lo & Ho);
    try done; [lia|].
  destruct (f90_table zero inactive junk Concentrations (conc_counts c g) (conc_get c g m') t2 out)
    as (t2' & Et & Hw2' & E1 & E2 & He); try done.
  { unfold conc_get. cbn [offered doc_length conc_counts n_xyz n_comps]. by rewrite Eo. }
  { cbn. nia. }
  cbn [doc_columns conc_counts n_xyz n_comps] in E1, E2, He.
  exists m', t2'. split_and!; [|done..|].
  - rewrite Es. unfold conc_set. by rewrite Em.
  - intros j gc gc' por sat rv dens k gf x Hr Hcov P1 P2 P3 P4 Hk Hx.
    assert (Hkl : k < length (c_comps c)).
    { destruct Hc as ([_ <-] & _). by eapply lookup_lt_Some. }
    assert (Hgc : gc < g_n g).
    { unfold element in Hx. case_decide as Hb; [|done]. lia. }
    assert (Hgc' : gc' < g_n g).
    { destruct Hg as ((_ & Hf & _) & _). rewrite Forall_forall in Hf. apply Hf.
      destruct Hcov as (b & Hb & Hin). apply elem_of_list_join. exists b. split; [done|].
      by eapply elem_of_list_lookup_2. }
    rewrite He by done. rewrite (Nat.add_comm gc'). eapply Ho; try done.
    rewrite (Nat.add_comm _ gc). by rewrite Hv.
Qed.
Print Assumptions f90_round_trip.

(** ** Cases *)

Definition ex_counts : counts := Counts 2 2 0 0 1 0 2.
Definition ex_meth (old : list Z) : outcome (irm_result * list Z) := Ret (IRM_OK, [10; 20; 11; 21]%Z).
Definition ex_store (v : list Z) (m : list Z) : outcome (irm_result * list Z) := Ret (IRM_OK, v).

(** Two cells, two components. An array of five numbers keeps its last one; the same through the
    Fortran module; three rows instead of two shift the second component, in and out. *)
Example wrap_case :
  get_array 0%Z (-1)%Z C Concentrations (Some (ex_counts, ex_meth)) (Some [1; 2; 3; 4; 5]%Z) =
    Ret (IRM_OK, Some [10; 20; 11; 21; 5]%Z) /\
  set_array F SetConcentrations 0 (Some (ex_counts, ex_store)) (Some [1; 2; 3; 4; 5]%Z) [] = Ret (IRM_OK, [1; 2; 3; 4]%Z) /\
  f90_get2 0%Z (-1)%Z 99%Z Concentrations ex_counts ex_meth (Some (Array2 1 1 [7]%Z)) =
    Ret (IRM_OK, Array2 2 2 [10; 20; 11; 21]%Z) /\
  f90_get2 0%Z (-1)%Z 99%Z Concentrations ex_counts ex_meth (Some (Array2 3 2 [1; 2; 3; 4; 5; 6]%Z)) =
    Ret (IRM_OK, Array2 3 2 [10; 20; 11; 21; 5; 6]%Z) /\
  f90_set2 true SetConcentrations ex_counts ex_store (Array2 3 2 [1; 2; 3; 4; 5; 6]%Z) [] =
    Ret (Back (IRM_OK, [1; 2; 3; 4]%Z)) /\
  f90_set2 true SetConcentrations ex_counts ex_store (Array2 1 2 [1; 2]%Z) [] = Ret Abort /\
  get_array 0%Z (-1)%Z C Density (Some (ex_counts, fun _ => Ret (IRM_OK, [5]%Z))) (Some [1; 2; 3]%Z) =
    Ret (IRM_FAIL, Some [-1; -1; 3]%Z) /\
  get_array 0%Z (-1)%Z C Pressure (Some (ex_counts, fun _ => Ret (IRM_OK, [5]%Z))) (Some [1; 2; 3]%Z) =
    Ret (IRM_FAIL, Some [1; 2; 3]%Z) /\
  get_array 0%Z (-1)%Z C SelectedOutput (Some (Counts 2 2 0 0 1 (-3) 2, ex_meth)) (Some [1; 2; 3]%Z) = Throw.
Proof. repeat split; vm_compute; reflexivity. Qed.

(** Three user cells, the outer two share chemistry cell 0. *)
Example backward_case :
  let s := MS 3 1 3 [] [] [] [] in
  (create_mapping s [0; 1; 0]%Z).2 = IRM_OK /\
  get_backward (Some (create_mapping s [0; 1; 0]%Z).1) 0 (Some [9; 9; 9]%Z) 3 = Ret (IRM_OK, Some [0; 2; 9]%Z, 2%Z) /\
  f90_backward 9 (Some (create_mapping s [0; 1; 0]%Z).1) 0 = Ret (IRM_OK, [0; 2]%Z) /\
  f90_backward 9 (Some (create_mapping s [0; 1; 0]%Z).1) 2 = Ret (IRM_INVALIDARG, replicate 1000 9%Z).
Proof. repeat split; vm_compute; reflexivity. Qed.

(** The hypotheses of [f90_round_trip] hold of the case of the Conc topic: four cells, two of them
    sharing a chemistry cell, one inactive; calcium set in the first cell is read in the third. *)
Example f90_round_trip_applies :
  exists m' t2', f90_set2 true SetConcentrations (conc_counts (ex_cfg MgL false) ex_grid)
      (conc_set (ex_cfg MgL false) ex_grid) (Array2 4 5 ex_t) ex_cells = Ret (Back (IRM_OK, m')) /\
    f90_get2 0%Qc inactive 0%Qc Concentrations (conc_counts (ex_cfg MgL false) ex_grid)
      (conc_get (ex_cfg MgL false) ex_grid m') (Some (Array2 0 0 [])) = Ret (IRM_OK, t2') /\
    element t2' 2 3 = Some (qz 2).
Proof.
  destruct (f90_round_trip true 0%Qc 0%Qc (ex_cfg MgL false) ex_grid ex_cells (Array2 4 5 ex_t) (Array2 0 0 []))
    as (m' & t2' & Es & Eg & _ & _ & H).
  - apply ex_grid_ok.
  - apply ex_cfg_ok.
  - done.
  - done.
  - done.
  - repeat constructor; by eexists.
  - apply ex_wet.
  - cbn. lia.
  - done.
  - done.
  - done.
  - done.
  - left. cbn. lia.
  - exists m', t2'. split_and!; [done..|].
    refine (eq_trans (H 0%nat 0%nat 2%nat _ _ _ _ 3%nat _ _ _ _ _ _ _ _ _ _) _).
    + by eexists.
    + exists [0; 2]%nat. split; [done|]. right. left.
    + reflexivity.
    + reflexivity.
    + reflexivity.
    + reflexivity.
    + reflexivity.
    + reflexivity.
    + vm_compute. reflexivity.
Qed.
