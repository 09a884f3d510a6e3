From Coq Require Import String QArith Qcanon.
From stdpp Require Import prelude strings gmap.
From Verif.Base Require Import Result.
From Verif.Names Require Import Model Spec Proofs.
From Verif.Solution Require Import Model Proofs.
From Verif.Conc Require Import Model Spec.
Local Open Scope Qc_scope.

(** ** Loops *)
Lemma omap_list_ret {A B} (f : A -> outcome B) (h : A -> B) l :
  (forall x, x ∈ l -> f x = Ret (h x)) -> omap_list f l = Ret (map h l).
Proof.
  induction l as [|x l IH]; intros H; [done|]. simpl. rewrite (H x) by left. simpl.
  rewrite IH; [done|]. intros y Hy. apply H. by right.
Qed.
Lemma omap_list_inv {A B} (f : A -> outcome B) l r :
  omap_list f l = Ret r -> Forall2 (fun x y => f x = Ret y) l r.
Proof.
  revert r. induction l as [|x l IH]; intros r; simpl; [intros [= <-]; constructor|].
  destruct (f x) as [y| |] eqn:E; [|done..]. simpl. destruct (omap_list f l) as [ys| |]; [|done..].
  simpl. intros [= <-]. constructor; [done|]. by apply IH.
Qed.
Lemma vat_ret {A} (l : list A) i x : vat l i = Ret x <-> l !! i = Some x.
Proof. unfold vat. destruct (l !! i); split; try done; by intros [= ->]. Qed.

(** ** Positions in a vector of columns *)
Lemma pos_inj (n i gc i' gc' : nat) :
  (gc < n -> gc' < n -> n * i + gc = n * i' + gc' -> i = i' /\ gc = gc')%nat.
Proof.
  intros H1 H2 H. destruct (Nat.lt_trichotomy i i') as [Hi|[->|Hi]]; [nia| |nia]. split; [done|lia].
Qed.
Lemma pos_lt (n nc i gc : nat) : (gc < n -> i < nc -> n * i + gc < n * nc)%nat.
Proof. intros. nia. Qed.

Lemma scatter_comps_spec n nc gc d todo i out :
  length out = (n * nc)%nat -> (gc < n)%nat -> (i + todo <= nc)%nat -> (i + todo <= length d)%nat ->
  exists out', scatter_comps n gc d i todo out = Ret out' /\ length out' = length out /\
    forall i' gc', (i' < nc)%nat -> (gc' < n)%nat ->
      out' !! (n * i' + gc')%nat =
      if decide (gc' = gc /\ i <= i' < i + todo)%nat then d !! i' else out !! (n * i' + gc')%nat.
Proof.
  revert i out. induction todo as [|todo IH]; intros i out Hl Hg Hn Hd.
  { exists out. split_and!; [done..|]. intros i' gc' _ _. rewrite decide_False by lia. done. }
  simpl. destruct (lookup_lt_is_Some_2 d i) as [x Hx]; [lia|].
  unfold vat. rewrite Hx. cbn [obind]. unfold vset.
  assert (Hp : (n * i + gc < length out)%nat) by (rewrite Hl; apply pos_lt; lia).
  rewrite decide_True by done. cbn [obind].
  destruct (IH (S i) (<[(n * i + gc)%nat := x]> out)) as (out' & E & El & Es);
    [by rewrite insert_length|lia..|].
  exists out'. split_and!; [done|by rewrite El, insert_length|]. intros i' gc' Hi' Hg'.
  rewrite Es by done. destruct (decide (gc' = gc /\ S i <= i' < S i + todo)%nat) as [Ha|Ha].
  - rewrite decide_True by lia. done.
  - destruct (decide (gc' = gc /\ i <= i' < i + S todo)%nat) as [Hb|Hb].
    + destruct Hb as [-> Hb]. assert (i' = i) as -> by lia.
      rewrite list_lookup_insert by done. done.
    + rewrite list_lookup_insert_ne; [done|]. intros Heq. apply pos_inj in Heq; [|done..]. lia.
Qed.

Lemma scatter_spec n nc gcs d out :
  length out = (n * nc)%nat -> Forall (fun gc => gc < n)%nat gcs -> (nc <= length d)%nat ->
  exists out', scatter n nc gcs d out = Ret out' /\ length out' = length out /\
    forall i gc, (i < nc)%nat -> (gc < n)%nat ->
      out' !! (n * i + gc)%nat = if decide (gc ∈ gcs) then d !! i else out !! (n * i + gc)%nat.
Proof.
  revert out. induction gcs as [|gc gcs IH]; intros out Hl Hf Hd.
  { exists out. split_and!; [done..|]. intros i gc _ _. rewrite decide_False; [done|]. apply not_elem_of_nil. }
  apply Forall_cons in Hf as [Hg Hf]. simpl.
  destruct (scatter_comps_spec n nc gc d nc 0 out) as (o1 & E1 & L1 & S1); [done|done|lia|lia|].
  rewrite E1. cbn [obind]. destruct (IH o1) as (o2 & E2 & L2 & S2); [by rewrite L1|done|done|].
  exists o2. split_and!; [done|by rewrite L2|]. intros i gc' Hi Hg'. rewrite S2 by done.
  destruct (decide (gc' ∈ gcs)) as [Hin|Hin].
  - rewrite decide_True; [done|]. by right.
  - rewrite S1 by done. destruct (decide (gc' = gc)) as [->|Hne].
    + rewrite decide_True by lia. rewrite decide_True; [done|]. by left.
    + rewrite decide_False by tauto. rewrite decide_False; [done|]. by apply not_elem_of_cons.
Qed.

(** The row a cell reports. *)
Definition row_of (c : cfg) (g : grid) (b : list nat) (s : sol) : outcome (list Qc) :=
  obind (vol_dens c g b s) (fun vd => cell_out c vd.1 vd.2 s).

Lemma get_cells_spec c g back m out rows :
  length out = (g_n g * length (c_comps c))%nat ->
  Forall (fun gc => gc < g_n g)%nat (mjoin back) -> NoDup (mjoin back) ->
  Forall2 (fun bs d => exists s, bs.2 = Some s /\ row_of c g bs.1 s = Ret d /\ (length (c_comps c) <= length d)%nat)
          (zip back m) rows -> length m = length back ->
  exists out', get_cells c g back m out = Ret out' /\ length out' = length out /\
    forall i gc, (i < length (c_comps c))%nat -> (gc < g_n g)%nat ->
      (forall j b d, back !! j = Some b -> gc ∈ b -> rows !! j = Some d ->
         out' !! (g_n g * i + gc)%nat = d !! i) /\
      (gc ∉ mjoin back -> out' !! (g_n g * i + gc)%nat = out !! (g_n g * i + gc)%nat).
Proof.
  revert m out rows. induction back as [|b back IH]; intros m out rows Hl Hf Hnd HR Hm.
  { exists out. split_and!; [by destruct m|done|]. intros i gc _ _. split; [by intros ???|done]. }
  destruct m as [|s m]; [done|]. simpl in Hm. injection Hm as Hm. simpl in HR.
  apply Forall2_cons_inv_l in HR as (d & rows' & (s' & Hs & Hrow & Hd) & HR & ->). simpl in Hs. subst s.
  cbn [mjoin list_join] in Hf, Hnd. apply Forall_app in Hf as [Hf1 Hf2]. apply NoDup_app in Hnd as (N1 & N2 & N3).
  cbn [fst] in Hrow. unfold row_of in Hrow. cbn [get_cells].
  destruct (vol_dens c g b s') as [vd| |]; [|done..]. cbn [obind] in Hrow |- *. rewrite Hrow. cbn [obind].
  destruct (scatter_spec (g_n g) (length (c_comps c)) b d out) as (o1 & E1 & L1 & S1); [done..|].
  rewrite E1. cbn [obind].
  destruct (IH m o1 rows') as (o2 & E2 & L2 & S2); [by rewrite L1|done..|].
  exists o2. split_and!; [done|by rewrite L2|]. intros i gc Hi Hg. destruct (S2 i gc Hi Hg) as [A B]. split.
  - intros [|j] b' d' Hb Hin Hd'.
    + injection Hb as <-. injection Hd' as <-. rewrite B by by apply N2. rewrite S1 by done.
      by rewrite decide_True by done.
    + by apply (A j b' d').
  - cbn [mjoin list_join]. rewrite not_elem_of_app. intros [H1 H2]. rewrite B by done. rewrite S1 by done.
    by rewrite decide_False by done.
Qed.

(** ** The row of a cell *)
Lemma from_moles_all_ok u v dens xs gfw : (length xs <= length gfw)%nat ->
  exists d, from_moles_all u v dens xs gfw = Ret d /\ length d = length xs /\
    forall k x g, xs !! k = Some x -> gfw !! k = Some g -> d !! k = Some (from_moles u v dens x g).
Proof.
  revert gfw. induction xs as [|x xs IH]; intros gfw Hl.
  { exists []. by destruct gfw. }
  destruct gfw as [|g gfw]; [simpl in Hl; lia|]. simpl in Hl. destruct (IH gfw) as (d & E & L & S); [lia|].
  exists (from_moles u v dens x g :: d). cbn [from_moles_all]. rewrite E. split_and!; [done|simpl; by rewrite L|].
  intros [|k] y g' Hy Hg'; simpl in *; [congruence|by apply S].
Qed.
Lemma to_molars_ok u dens row gfw : (length row <= length gfw)%nat ->
  exists d, to_molars u dens row gfw = Ret d /\ length d = length row /\
    forall k x g, row !! k = Some x -> gfw !! k = Some g -> d !! k = Some (to_molar u dens x g).
Proof.
  revert gfw. induction row as [|x row IH]; intros gfw Hl.
  { exists []. by destruct gfw. }
  destruct gfw as [|g gfw]; [simpl in Hl; lia|]. simpl in Hl. destruct (IH gfw) as (d & E & L & S); [lia|].
  exists (to_molar u dens x g :: d). cbn [to_molars]. rewrite E. split_and!; [done|simpl; by rewrite L|].
  intros [|k] y g' Hy Hg'; simpl in *; [congruence|by apply S].
Qed.

Lemma cell_out_len c v dens s : comps_ok c -> exists d, cell_out c v dens s = Ret d /\ length d = length (c_comps c).
Proof.
  intros [H1 H2]. unfold cell_out, fixed in *.
  rewrite decide_False by (intros E; rewrite E in H2; simpl in H2; destruct (c_h2o c); lia).
  destruct (c_h2o c).
  - unfold out_h2o. destruct (c_gfw c) as [|g0 gfw] eqn:E; [simpl in H2; lia|]. simpl in H2.
    edestruct (from_moles_all_ok (c_unit c) v dens) as (d & Ed & L & _);
      [|rewrite Ed; cbn [obind]; eexists; split; [reflexivity|]].
    + simpl. rewrite map_length, drop_length. lia.
    + simpl. rewrite L. simpl. rewrite map_length, drop_length. lia.
  - unfold out_noh2o. edestruct (from_moles_all_ok (c_unit c) v dens) as (d & Ed & L & _);
      [|rewrite Ed; eexists; split; [reflexivity|]].
    + simpl. rewrite map_length, drop_length. lia.
    + rewrite L. simpl. rewrite map_length, drop_length. lia.
Qed.

Lemma back_facts g j b : grid_ok g -> g_back g !! j = Some b ->
  b <> [] /\ Forall (fun gc => gc < g_n g)%nat b.
Proof.
  intros [(H1 & H2 & H3) _] Hb. split.
  - rewrite Forall_forall in H1. apply H1. by eapply elem_of_list_lookup_2.
  - apply Forall_forall. intros gc Hin. rewrite Forall_forall in H2. apply H2.
    apply elem_of_list_join. exists b. split; [done|]. by eapply elem_of_list_lookup_2.
Qed.

Lemma vol_dens_ok c g j b s : grid_ok g -> g_back g !! j = Some b -> exists vd, vol_dens c g b s = Ret vd.
Proof.
  intros Hg Hb. destruct (back_facts g j b Hg Hb) as [Hne Hf]. unfold vol_dens.
  destruct (c_calc c); [by eexists|]. destruct b as [|k b]; [done|]. apply Forall_cons in Hf as [Hk _].
  destruct Hg as (_ & L1 & L2 & L3 & L4).
  destruct (lookup_lt_is_Some_2 (g_sat g) k) as [? E1]; [lia|].
  destruct (lookup_lt_is_Some_2 (g_por g) k) as [? E2]; [lia|].
  destruct (lookup_lt_is_Some_2 (g_rv g) k) as [? E3]; [lia|].
  destruct (lookup_lt_is_Some_2 (g_dens g) k) as [? E4]; [lia|].
  unfold vat. simpl. rewrite E1, E2, E3, E4. simpl. by eexists.
Qed.

Lemma row_of_ok c g j b s : grid_ok g -> comps_ok c -> g_back g !! j = Some b ->
  exists d, row_of c g b s = Ret d /\ length d = length (c_comps c).
Proof.
  intros Hg Hc Hb. unfold row_of. destruct (vol_dens_ok c g j b s Hg Hb) as [vd ->]. cbn [obind].
  by apply cell_out_len.
Qed.

Definition has_all (m : cells) : Prop := Forall is_Some m.

Lemma covers_join g j gc : covers g j gc -> gc ∈ mjoin (g_back g).
Proof.
  intros (b & H1 & H2). apply elem_of_list_join. exists b. split; [done|]. by eapply elem_of_list_lookup_2.
Qed.
Lemma join_covers g gc : gc ∈ mjoin (g_back g) -> exists j, covers g j gc.
Proof.
  intros H. apply elem_of_list_join in H as (b & H1 & H2). apply elem_of_list_lookup in H2 as [j H2].
  exists j, b. done.
Qed.

Lemma rows_exist c g back m : grid_ok g -> comps_ok c -> has_all m -> length m = length back ->
  (forall j b, back !! j = Some b -> exists j', g_back g !! j' = Some b) ->
  exists rows,
    Forall2 (fun bs d => exists s, bs.2 = Some s /\ row_of c g bs.1 s = Ret d /\ (length (c_comps c) <= length d)%nat)
            (zip back m) rows.
Proof.
  intros Hg Hc. revert m. induction back as [|b back IH]; intros m Hm Hl Hb.
  { exists []. simpl. constructor. }
  destruct m as [|s m]; [done|]. apply Forall_cons in Hm as [[s' ->] Hm]. simpl in Hl. injection Hl as Hl.
  destruct (IH m Hm Hl) as [rows HR]; [intros j b' Hb'; by apply (Hb (S j))|].
  destruct (Hb 0%nat b) as [j' Hj']; [done|].
  destruct (row_of_ok c g j' b s' Hg Hc Hj') as (d & Hd & Hld).
  exists (d :: rows). simpl. constructor; [|done]. exists s'. split_and!; [done..|lia].
Qed.

(** GetConcentrations: every position of the result. *)
Lemma get_spec c g m old : grid_ok g -> comps_ok c -> has_all m -> length m = length (g_back g) ->
  exists out, get_concentrations c g m old = Ret out /\
    length out = (g_n g * length (c_comps c))%nat /\
    forall i gc, (i < length (c_comps c))%nat -> (gc < g_n g)%nat ->
      (forall j b s, g_back g !! j = Some b -> gc ∈ b -> m !! j = Some (Some s) ->
         exists d, row_of c g b s = Ret d /\ length d = length (c_comps c) /\
                   out !! (g_n g * i + gc)%nat = d !! i) /\
      ((forall j, ~ covers g j gc) -> out !! (g_n g * i + gc)%nat = Some inactive).
Proof.
  intros Hg Hc Hm Hl. pose proof Hg as [(M1 & M2 & M3) _].
  destruct (rows_exist c g (g_back g) m) as [rows HR]; [done..|by eauto|].
  destruct (get_cells_spec c g (g_back g) m (replicate (g_n g * length (c_comps c)) inactive) rows)
    as (out & E & L & S); [by rewrite replicate_length|done..|].
  exists out. split_and!; [done|by rewrite L, replicate_length|]. intros i gc Hi Hgc.
  destruct (S i gc Hi Hgc) as [A B]. split.
  - intros j b s Hb Hin Hs.
    destruct (row_of_ok c g j b s Hg Hc Hb) as (d & Hd & Hld). exists d. split_and!; [done..|].
    apply (A j b d Hb Hin).
    assert (Hz : zip (g_back g) m !! j = Some (b, Some s)).
    { apply lookup_zip_with_Some. exists b, (Some s). done. }
    destruct (Forall2_lookup_l _ _ _ j _ HR Hz) as (d' & Hd' & s' & E1 & E2 & _). simpl in *.
    injection E1 as <-. rewrite Hd in E2. by injection E2 as <-.
  - intros Hno. rewrite B.
    + apply lookup_replicate. split; [done|]. by apply pos_lt.
    + intros Hin. apply join_covers in Hin as [j Hj]. by apply (Hno j).
Qed.

(** ** SetConcentrations *)
Definition row_at (c : cfg) (g : grid) (t : list Qc) (gc : nat) : list Qc :=
  map (fun k => default 0 (t !! (k * g_n g + gc)%nat)) (seq 0 (length (c_comps c))).

Lemma gather_row_ok c g t j gc b : (g_n g * length (c_comps c) <= length t)%nat ->
  g_back g !! j = Some (gc :: b) -> (gc < g_n g)%nat -> gather_row c g t j = Ret (row_at c g t gc).
Proof.
  intros Ht Hb Hgc. unfold gather_row, vat at 1. rewrite Hb. cbn. apply omap_list_ret.
  intros k Hk. apply elem_of_seq in Hk. unfold vat.
  destruct (lookup_lt_is_Some_2 t (k * g_n g + gc)) as [x Hx]; [nia|]. by rewrite Hx.
Qed.

Lemma rep_of g j : grid_ok g -> (j < length (g_back g))%nat -> exists gc b, g_back g !! j = Some (gc :: b) /\ (gc < g_n g)%nat.
Proof.
  intros Hg Hj. destruct (lookup_lt_is_Some_2 _ _ Hj) as [b Hb].
  destruct (back_facts g j b Hg Hb) as [Hne Hf]. destruct b as [|gc b]; [done|].
  exists gc, b. split; [done|]. by apply Forall_cons in Hf as [? _].
Qed.

Lemma seq_map_lookup {A} (f : nat -> A) n j : (j < n)%nat -> map f (seq 0 n) !! j = Some (f j).
Proof. intros H. rewrite list_lookup_fmap, lookup_seq_lt by done. done. Qed.

(** What SetConcentrations does to each cell. *)
Lemma set_spec c g t m : grid_ok g -> (g_n g * length (c_comps c) <= length t)%nat ->
  length m = length (g_back g) ->
  (forall j gc s, rep g j gc -> m !! j = Some s -> exists s', cell_in c g j (row_at c g t gc) s = Ret s') ->
  exists m', set_concentrations c g t m = Ret m' /\ length m' = length m /\
    forall j gc s, rep g j gc -> m !! j = Some s ->
      exists s', m' !! j = Some s' /\ cell_in c g j (row_at c g t gc) s = Ret s'.
Proof.
  intros Hg Ht Hl Hin. unfold set_concentrations.
  set (rp := fun j => match g_back g !! j with Some (gc :: _) => gc | _ => 0%nat end).
  assert (Hrp : forall j, (j < length (g_back g))%nat -> rep g j (rp j) /\ (rp j < g_n g)%nat).
  { intros j Hj. destruct (rep_of g j Hg Hj) as (gc & b & Hb & Hgc). unfold rp. rewrite Hb. split; [by exists b|done]. }
  rewrite (omap_list_ret _ (fun j => row_at c g t (rp j))).
  2:{ intros j Hj. apply elem_of_seq in Hj. destruct (Hrp j) as [[b Hb] Hgc]; [lia|]. by eapply gather_row_ok. }
  cbn [obind].
  set (nw := fun j => match m !! j with
                      | Some s => match cell_in c g j (row_at c g t (rp j)) s with Ret s' => s' | _ => None end
                      | None => None end).
  rewrite (omap_list_ret _ nw).
  2:{ intros j Hj. apply elem_of_seq in Hj. unfold vat at 1. rewrite seq_map_lookup by lia. cbn [obind].
      destruct (lookup_lt_is_Some_2 m j) as [s Hs]; [lia|]. unfold vat. rewrite Hs. cbn [obind].
      unfold nw. rewrite Hs. destruct (Hrp j) as [Hr _]; [lia|].
      destruct (Hin j (rp j) s Hr Hs) as [s' ->]. done. }
  eexists. split_and!; [done|by rewrite map_length, seq_length|].
  intros j gc s [b Hb] Hs.
  assert (Hj : (j < length (g_back g))%nat) by (by eapply lookup_lt_Some).
  rewrite seq_map_lookup by done. exists (nw j). split; [done|].
  assert (Hr : rp j = gc) by (unfold rp; by rewrite Hb). unfold nw. rewrite Hs, Hr.
  destruct (Hin j gc s) as [s' E]; [by exists b|done|]. by rewrite E.
Qed.

(** ** Totals of a solution set from a list of names *)
Lemma nd_add_ordered k x (l : nmap Qc) : ordered l -> ordered (nd_add Qcplus k x l).
Proof. intros H. unfold nd_add. destruct (nd_find _ _); by apply nd_set_ordered. Qed.

Lemma name_totals_fold names d acc :
  ordered acc -> NoDup names -> (forall n v, n ∈ names -> (n, v) ∉ acc) -> length names = length d ->
  let r := fold_left (fun acc p => nd_add Qcplus p.1 (clip0 p.2) acc) (zip names d) acc in
  ordered r /\ forall n v, (n, v) ∈ r <->
    (n, v) ∈ acc \/ exists i x, names !! i = Some n /\ d !! i = Some x /\ v = clip0 x.
Proof.
  revert d acc. induction names as [|n names IH]; intros d acc Ho Hn Hf Hl r.
  { simpl in r. split; [done|]. intros m v. split; [by left|]. intros [?|(i & x & ? & _)]; done. }
  destruct d as [|x d]; [done|]. simpl in Hl. injection Hl as Hl. apply NoDup_cons in Hn as [Hn1 Hn2].
  cbn [zip zip_with fold_left fst snd] in r.
  assert (Efind : nd_find n acc = None).
  { apply nd_find_none; [done|]. intros v. apply Hf. by left. }
  assert (E : nd_add Qcplus n (clip0 x) acc = nd_set n (clip0 x) acc) by (unfold nd_add; by rewrite Efind).
  destruct (IH d (nd_add Qcplus n (clip0 x) acc)) as [A B]; [by apply nd_add_ordered|done| |done|].
  { intros m v Hm Hin. rewrite E in Hin. apply nd_set_elem in Hin; [|done].
    destruct Hin as [[-> _]|[_ Hin]]; [done|]. by apply (Hf m v); [right|]. }
  split; [exact A|]. intros m v. unfold r. rewrite B. rewrite E, nd_set_elem by done. split.
  - intros [[[-> ->]|[_ H]]|(i & y & H1 & H2 & H3)].
    + right. exists 0%nat, x. done.
    + by left.
    + right. exists (S i), y. done.
  - intros [H|([|i] & y & H1 & H2 & H3)].
    + left. right. split; [|done]. intros ->. by apply (Hf n v); [left|].
    + simpl in *. injection H1 as ->. injection H2 as ->. left. by left.
    + right. exists i, y. done.
Qed.
Lemma name_totals_spec names d : NoDup names -> length names = length d ->
  ordered (name_totals names d) /\ forall n v, (n, v) ∈ name_totals names d <->
    exists i x, names !! i = Some n /\ d !! i = Some x /\ v = clip0 x.
Proof.
  intros Hn Hl. destruct (name_totals_fold names d [] ) as [A B]; [constructor|done| |done|].
  { intros n v _ ?%elem_of_nil. done. }
  split; [exact A|]. intros n v. unfold name_totals. rewrite B. split; [|by right].
  by intros [?%elem_of_nil|?].
Qed.

Lemma clip_tiny_elem l n v : (n, v) ∈ clip_tiny l -> exists w, (n, w) ∈ l.
Proof.
  intros H. apply elem_of_list_fmap in H as ([m w] & [= -> _] & H). by exists w.
Qed.

Lemma updated_total h o cb names d s i n x :
  NoDup names -> Forall element_name names -> length names = length d ->
  names !! i = Some n -> d !! i = Some x ->
  get_total n (simplified (sol_update h o cb (name_totals names d) s)) = kept x x.
Proof.
  intros Hn Hf Hl Hi Hx. destruct (name_totals_spec names d Hn Hl) as [Ho He].
  assert (Hel : forall m v, (m, v) ∈ name_totals names d -> element_name m).
  { intros m v Hin. apply He in Hin as (k & y & Hk & _). rewrite Forall_forall in Hf. apply Hf.
    by eapply elem_of_list_lookup_2. }
  assert (E1 : simplify_redox 0 Qcplus (name_totals names d) = name_totals names d).
  { apply simplify_plain; [intros; ring|done|]. intros m v Hin. by apply (Hel m v). }
  unfold get_total, simplified, sol_update. cbn [s_totals]. rewrite E1.
  assert (E2 : simplify_redox 0 Qcplus (clip_tiny (name_totals names d)) = clip_tiny (name_totals names d)).
  { apply simplify_plain; [intros; ring|by apply clip_tiny_ordered|].
    intros m v Hin. apply clip_tiny_elem in Hin as [w Hin]. by apply (Hel m w). }
  rewrite E2, clip_tiny_find.
  assert (E3 : nd_find n (name_totals names d) = Some (clip0 x)).
  { apply nd_find_some; [done|]. apply He. by exists i, x. }
  rewrite E3. cbn [option_map]. unfold clip0, kept.
  change (Q2Qc (1 # 10 ^ 25)) with tiny.
  destruct (Qc_ltb x 0) eqn:E4.
  - assert (H0 : Qc_ltb x tiny = true).
    { apply Qc_ltb_true. apply Qc_ltb_true in E4. eapply Qclt_trans; [exact E4|]. by vm_compute. }
    rewrite H0. by destruct (Qc_ltb 0 tiny).
  - by destruct (Qc_ltb x tiny).
Qed.

(** ** Amounts behind a row *)
Definition amounts (c : cfg) (s : sol) : list Qc :=
  let s := simplified s in
  if c_h2o c then
    let w := s_mw s * qz 1000 / default 0 (c_gfw c !! 0%nat) in
    w :: s_h s - qz 2 * w :: s_o s - w :: s_cb s :: map (fun n => get_total n s) (drop 4 (c_comps c))
  else s_h s :: s_o s :: s_cb s :: map (fun n => get_total n s) (drop 3 (c_comps c)).

Lemma amounts_len c s : comps_ok c -> length (amounts c s) = length (c_comps c).
Proof.
  intros [H _]. unfold fixed in H. unfold amounts. destruct (c_h2o c); simpl; rewrite map_length, drop_length; lia.
Qed.

Lemma cell_out_spec c v dens s : comps_ok c -> Forall (fun g => 0 < g) (c_gfw c) ->
  exists d, cell_out c v dens s = Ret d /\ length d = length (c_comps c) /\
    forall k x gf, amounts c s !! k = Some x -> c_gfw c !! k = Some gf ->
      d !! k = Some (from_moles (c_unit c) v dens x gf).
Proof.
  intros Hc Hp. pose proof (amounts_len c s Hc) as La. destruct Hc as [H1 H2]. unfold fixed in H1.
  unfold cell_out. rewrite decide_False by (intros E; rewrite E in H2; simpl in H2; destruct (c_h2o c); lia).
  unfold amounts in *. destruct (c_h2o c).
  - unfold out_h2o. destruct (c_gfw c) as [|g0 gfw]; [simpl in H2; lia|].
    apply Forall_cons in Hp as [Hg0 _]. apply Qclt_ne in Hg0. cbn zeta. cbn [default lookup list_lookup] in *.
    set (w := s_mw (simplified s) * qz 1000 / g0) in *.
    edestruct (from_moles_all_ok (c_unit c) v dens) as (d & Ed & L & S); [|rewrite Ed].
    { simpl in La, H2 |- *. lia. }
    cbn [obind]. eexists. split_and!; [done| |].
    + simpl in La |- *. rewrite L. simpl. lia.
    + intros [|k] x gf Hx Hgf.
      * injection Hx as <-. injection Hgf as <-. cbn [lookup list_lookup]. f_equal. unfold from_moles, w.
        change (qz 1000000) with (qz 1000 * qz 1000).
        change (s_mw (simplified s)) with (s_mw s). assert (Hk : qz 1000 <> 0) by done.
        revert Hk. generalize (qz 1000) (s_mw s). intros k y Hk.
        assert (R1 : y * k / g0 * g0 = y * k) by (field; done).
        assert (R2 : y * k / k = y) by (field; done).
        destruct (c_unit c); [|done|]; rewrite R1; [|by rewrite R2]. f_equal. ring.
      * by apply S.
  - edestruct (from_moles_all_ok (c_unit c) v dens) as (d & Ed & L & S); [|unfold out_noh2o; rewrite Ed].
    { simpl in La |- *. lia. }
    eexists. split_and!; [done| |done]. rewrite L. done.
Qed.

(** Amounts from the row given to SetConcentrations, for a solution in a volume [vol]. *)
Definition row_moles (c : cfg) (dens vol : Qc) (row : list Qc) : list Qc :=
  zip_with (fun x g => to_molar (c_unit c) dens x g * vol) row (c_gfw c).

Lemma to_molars_zip u dens row gfw : (length row <= length gfw)%nat ->
  to_molars u dens row gfw = Ret (zip_with (to_molar u dens) row gfw).
Proof.
  revert gfw. induction row as [|x row IH]; intros gfw Hl; [by destruct gfw|].
  destruct gfw as [|g gfw]; [simpl in Hl; lia|]. simpl in Hl. cbn [to_molars]. rewrite IH by lia. done.
Qed.
Lemma map_zip_with {A B C D} (f : C -> D) (h : A -> B -> C) l l' :
  map f (zip_with h l l') = zip_with (fun x y => f (h x y)) l l'.
Proof. revert l'. induction l as [|x l IH]; intros [|y l']; simpl; [done..|]. by rewrite IH. Qed.

Lemma in_noh2o_spec c dens por sat rv row s : comps_ok c -> c_h2o c = false ->
  length row = length (c_comps c) ->
  exists h o cb rest, row_moles c dens (por * sat * rv) row = h :: o :: cb :: rest /\
    length rest = length (drop 3 (c_comps c)) /\
    in_noh2o c dens por sat rv row s = Ret (sol_update h o cb (name_totals (drop 3 (c_comps c)) rest) s).
Proof.
  intros [H1 H2] Hh Hr. unfold fixed in H1. rewrite Hh in H1. unfold in_noh2o.
  rewrite to_molars_zip by lia. cbn [obind]. rewrite map_zip_with. fold (row_moles c dens (por * sat * rv) row).
  assert (L : length (row_moles c dens (por * sat * rv) row) = length (c_comps c)).
  { unfold row_moles. rewrite zip_with_length. lia. }
  destruct (row_moles c dens (por * sat * rv) row) as [|h [|o [|cb rest]]]; [simpl in L; lia..|].
  exists h, o, cb, rest. split_and!; [done| |done]. simpl in L. rewrite drop_length. lia.
Qed.

Lemma in_h2o_spec c dens por sat rv row s : comps_ok c -> c_h2o c = true ->
  length row = length (c_comps c) ->
  exists w h o cb rest, row_moles c dens (por * sat * rv) row = w :: h :: o :: cb :: rest /\
    length rest = length (drop 4 (c_comps c)) /\
    in_h2o c dens por sat rv row s =
      Ret (sol_update (h + qz 2 * w) (o + w) cb (name_totals (drop 4 (c_comps c)) rest) s).
Proof.
  intros [H1 H2] Hh Hr. unfold fixed in H1. rewrite Hh in H1. unfold in_h2o, row_moles.
  destruct row as [|w row]; [simpl in Hr; lia|]. destruct (c_gfw c) as [|g0 gfw] eqn:Eg; [simpl in H2; lia|].
  simpl in Hr, H2. cbn [drop]. rewrite drop_0, to_molars_zip by lia. cbn [obind zip_with].
  assert (E : match c_unit c with MolL => Ret w | u => Ret (to_molar u dens w g0) end = Ret (to_molar (c_unit c) dens w g0)).
  { by destruct (c_unit c). }
  destruct row as [|h row]; [simpl in Hr; lia|]. destruct gfw as [|g1 gfw]; [simpl in *; lia|].
  destruct row as [|o row]; [simpl in Hr; lia|]. destruct gfw as [|g2 gfw]; [simpl in *; lia|].
  destruct row as [|cb row]; [simpl in Hr; lia|]. destruct gfw as [|g3 gfw]; [simpl in *; lia|].
  cbn [zip_with]. do 5 eexists. split; [done|]. split.
  { rewrite zip_with_length, drop_length. simpl in *. lia. }
  rewrite E. cbn [obind map update_with]. rewrite map_zip_with.
  rewrite (Qcmult_plus_distr_l (to_molar _ dens h g1)), (Qcmult_plus_distr_l (to_molar _ dens o g2)).
  rewrite (Qcmult_comm (to_molar _ dens w g0) (qz 2)), <- (Qcmult_assoc (qz 2)). done.
Qed.

(** What one cell holds after SetConcentrations. *)
Lemma cell_in_spec c g j gc t s por sat rv dens :
  grid_ok g -> comps_ok c -> rep g j gc ->
  g_por g !! gc = Some por -> g_sat g !! gc = Some sat -> g_rv g !! gc = Some rv -> g_dens g !! gc = Some dens ->
  0 < sat ->
  exists s', cell_in c g j (row_at c g t gc) (Some s) = Ret (Some s') /\
    (if c_h2o c then in_h2o else in_noh2o) c dens por sat rv (row_at c g t gc) s = Ret s'.
Proof.
  intros Hg Hc [b Hb] E1 E2 E3 E4 Hs. unfold cell_in.
  rewrite decide_False by (intros E; destruct Hc as [H1 H2]; rewrite E in H2; unfold fixed in H1; simpl in H2; destruct (c_h2o c); lia).
  unfold vat. rewrite Hb. cbn. rewrite E4. cbn. rewrite E1. cbn. rewrite E3. cbn. rewrite E2. cbn.
  rewrite (proj2 (Qc_ltb_true 0 sat) Hs).
  assert (L : length (row_at c g t gc) = length (c_comps c)) by (unfold row_at; by rewrite map_length, seq_length).
  destruct (c_h2o c) eqn:Eh.
  - destruct (in_h2o_spec c dens por sat rv (row_at c g t gc) s) as (?&?&?&?&?&_&_&->); [done..|].
    eexists. split; reflexivity.
  - destruct (in_noh2o_spec c dens por sat rv (row_at c g t gc) s) as (?&?&?&?&_&_&->); [done..|].
    eexists. split; reflexivity.
Qed.

Lemma rep_props g j gc : grid_ok g -> rep g j gc -> (gc < g_n g)%nat /\ covers g j gc /\
  exists por sat rv dens, g_por g !! gc = Some por /\ g_sat g !! gc = Some sat /\
    g_rv g !! gc = Some rv /\ g_dens g !! gc = Some dens.
Proof.
  intros Hg [b Hb]. destruct (back_facts g j _ Hg Hb) as [_ Hf]. apply Forall_cons in Hf as [Hgc _].
  split; [done|]. split; [exists (gc :: b); split; [done|left]|].
  destruct Hg as (_ & L1 & L2 & L3 & L4).
  destruct (lookup_lt_is_Some_2 (g_sat g) gc) as [? E1]; [lia|].
  destruct (lookup_lt_is_Some_2 (g_por g) gc) as [? E2]; [lia|].
  destruct (lookup_lt_is_Some_2 (g_rv g) gc) as [? E3]; [lia|].
  destruct (lookup_lt_is_Some_2 (g_dens g) gc) as [? E4]; [lia|]. by do 4 eexists.
Qed.

(** SetConcentrations on a well-formed module always succeeds. *)
Lemma set_total c g t m : grid_ok g -> comps_ok c -> (g_n g * length (c_comps c) <= length t)%nat ->
  length m = length (g_back g) ->
  exists m', set_concentrations c g t m = Ret m' /\ length m' = length m /\
    forall j gc s, rep g j gc -> m !! j = Some s ->
      exists s', m' !! j = Some s' /\ cell_in c g j (row_at c g t gc) s = Ret s'.
Proof.
  intros Hg Hc Ht Hl. apply set_spec; [done..|]. intros j gc s Hr Hs.
  destruct (rep_props g j gc Hg Hr) as (Hgc & _ & por & sat & rv & dens & E1 & E2 & E3 & E4).
  destruct (decide (0 < sat)) as [Hsat|Hsat].
  - destruct s as [s|].
    + destruct (cell_in_spec c g j gc t s por sat rv dens) as (s' & -> & _); [done..|]. by eexists.
    + destruct Hr as [b Hb]. unfold cell_in.
      rewrite decide_False by (intros E; destruct Hc as [H1 H2]; rewrite E in H2; unfold fixed in H1; simpl in H2; destruct (c_h2o c); lia).
      unfold vat. rewrite Hb. cbn. rewrite E4. cbn. rewrite E1. cbn. rewrite E3. cbn. rewrite E2. cbn.
      destruct (Qc_ltb 0 sat); by eexists.
  - destruct Hr as [b Hb]. unfold cell_in.
    rewrite decide_False by (intros E; destruct Hc as [H1 H2]; rewrite E in H2; unfold fixed in H1; simpl in H2; destruct (c_h2o c); lia).
    unfold vat. rewrite Hb. cbn. rewrite E4. cbn. rewrite E1. cbn. rewrite E3. cbn. rewrite E2. cbn.
    destruct (Qc_ltb 0 sat) eqn:E; [|by eexists]. apply Qc_ltb_true in E. done.
Qed.
