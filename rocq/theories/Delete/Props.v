(** DELETE: the property theorems. *)
From Coq Require Import String Ascii ZArith Lia.
From stdpp Require Import prelude strings pretty gmap.
From Verif.Base Require Import Result.
From Verif.Delete Require Import Model Spec Proofs.
From Verif.Init Require Model.
Local Open Scope string_scope.

(** * C98 What is named is deleted, and nothing else *)

(** A number or range that is written is the set of the numbers within. *)
Theorem range_as_written r it : fits r ->
  exists it', augment (span_text r) it = Ret it' /\ defined it' = true /\
    forall n, n ∈ numbers it' <-> within n r \/ n ∈ numbers it.
Proof.
  intros H. eexists. split; [by apply augment_span|]. split; [done|]. intros n. cbn [numbers].
  by rewrite elem_of_union, elem_cover.
Qed.
Print Assumptions range_as_written.

Lemma read_block rs (b : lists) : Forall sound_request rs ->
  read_delete (block_of rs) b = Ret (settle (foldl do_request (Lists (items b) off) rs), true).
Proof. intros H. unfold read_delete, read, block_of. cbn [tail]. by rewrite read_requests. Qed.

Section C98.
Context {E : kind -> Type}.
Implicit Types (t : tables E) (s : lists * tables E).

Lemma deleted_of b t rs : (forall k n, (let it := items b k in defined it = true /\ (numbers it = ∅ \/ n ∈ numbers it)) <-> gone rs k n) ->
  let s' := delete_entities b t in
  idle s'.1 /\ forall k n, (gone rs k n -> s'.2 k !! n = None) /\ (~ gone rs k n -> s'.2 k !! n = t k !! n).
Proof.
  intros H. cbn zeta. split; [done|]. intros k n. cbn [delete_entities snd]. rewrite lookup_erase. cbn zeta in H.
  split; intros Hg; rewrite <- H in Hg; case_decide; done.
Qed.

(** For every block, with any requests in any order, over any contents. *)
Theorem delete_as_asked rs react s t : Forall sound_request rs -> idle s.1 -> react s.2 = Some t ->
  exists s', simulate [block_of rs] react s = Ret (s', true) /\ idle s'.1 /\
    forall k n, (gone rs k n -> s'.2 k !! n = None) /\ (~ gone rs k n -> s'.2 k !! n = t k !! n).
Proof.
  intros Hr Hi Ht. eexists. split.
  { unfold simulate. cbn [read_blocks]. rewrite read_block by done. cbn [obind fst snd andb]. rewrite Ht. reflexivity. }
  apply deleted_of. intros k n. apply (settled rs (Lists (items s.1) off)); done.
Qed.
(** "-all" *)
Theorem delete_all react s t : react s.2 = Some t ->
  exists s', simulate [[["DELETE"]; ["-all"]]] react s = Ret (s', true) /\ idle s'.1 /\ forall k, s'.2 k = ∅.
Proof.
  intros Ht. eexists. split.
  { unfold simulate. cbn [read_blocks].
    change (read_delete [["DELETE"]; ["-all"]] s.1) with (Ret (Lists (fun _ => Item true ∅) off, true)).
    cbn [obind fst snd andb]. rewrite Ht. reflexivity. }
  split; [done|]. intros k. done.
Qed.

(** ** After a run that fails *)

(** An input that stops leaves the tables alone, but not for long: the next input that succeeds deletes what the failed
    one named, from what is there by then. *)
Theorem delete_after_failure rs s : Forall sound_request rs -> idle s.1 ->
  exists b, simulate [block_of rs] (fun _ => None) s = Ret ((b, s.2), false) /\
    forall s1 react t, s1.1 = b -> react s1.2 = Some t ->
      exists s', simulate [] react s1 = Ret (s', true) /\ idle s'.1 /\
        forall k n, (gone rs k n -> s'.2 k !! n = None) /\ (~ gone rs k n -> s'.2 k !! n = t k !! n).
Proof.
  intros Hr Hi. eexists. split.
  { unfold simulate. cbn [read_blocks]. rewrite read_block by done. reflexivity. }
  intros s1 react t Hs1 Ht. eexists. split.
  { unfold simulate. cbn [read_blocks obind fst snd]. rewrite Ht. reflexivity. }
  apply deleted_of. intros k n. rewrite Hs1. apply (settled rs (Lists (items s.1) off)); done.
Qed.

(** ** What PhreeqcRM writes *)

(** "DELETE -surface n" and "DELETE -exchange n" (PhreeqcRM.cpp 3086, 3125) delete nothing: the line with the keyword is
    not read. *)
Theorem find_components_deletes_nothing n s t react : idle s.1 -> react s.2 = Some t ->
  (exists s', simulate [delete_surface_text n] react s = Ret (s', true) /\ idle s'.1 /\ forall k, s'.2 k = t k) /\
  (exists s', simulate [delete_exchange_text n] react s = Ret (s', true) /\ idle s'.1 /\ forall k, s'.2 k = t k).
Proof.
  intros Hi Ht. split; eexists; (split;
    [unfold simulate; cbn [read_blocks];
     match goal with |- context [read_delete ?x s.1] => change (read_delete x s.1) with (Ret (Lists (items s.1) off, true)) end;
     cbn [obind fst snd andb]; rewrite Ht; reflexivity|]);
    (split; [done|]; intros k; cbn [delete_entities snd items]; by rewrite Hi).
Qed.
(** "DELETE; -solution n" and "DELETE; -cell n" *)
Theorem delete_one n s t react : is_int n -> idle s.1 -> react s.2 = Some t ->
  (exists s', simulate [delete_solution_text n] react s = Ret (s', true) /\ idle s'.1 /\
     s'.2 Solution = delete n (t Solution) /\ forall k, k <> Solution -> s'.2 k = t k) /\
  (exists s', simulate [delete_cell_text n] react s = Ret (s', true) /\ idle s'.1 /\ forall k, s'.2 k = delete n (t k)).
Proof.
  intros Hn Hi Ht.
  assert (forall nm sb x, listed sb [Request nm sb [One n] []] x <-> x = One n) as Hl.
  { intros nm sb x. unfold listed. setoid_rewrite elem_of_list_singleton. split.
    - intros (r & -> & _ & Hx). by apply elem_of_list_singleton in Hx.
    - intros ->. eexists. split; [done|]. split; [done|]. left. }
  assert (forall nm sb sb' x, sb <> sb' -> ~ mentioned sb' [Request nm sb [One n] []] /\ ~ listed sb' [Request nm sb [One n] []] x) as Hno.
  { intros nm sb sb' x Hne. unfold listed, mentioned. setoid_rewrite elem_of_list_singleton.
    split; [intros (r & -> & ?)|intros (r & -> & ? & _)]; done. }
  split.
  - destruct (delete_as_asked [Request "solution" (Of Solution) [One n] []] react s t) as (s' & H1 & H2 & H3);
      [apply Forall_singleton; split_and!; [done|by apply Forall_singleton|by constructor]|done|done|].
    exists s'. split; [done|]. split; [done|].
    assert (forall k m, gone [Request "solution" (Of Solution) [One n] []] k m <-> k = Solution /\ m = n) as Hg.
    { intros k m. unfold gone, all_of. split.
      - intros [[H _]|[[Hm H]|(x & [H|H] & Hw)]].
        + by destruct (Hno "solution" (Of Solution) Of_cells (One 0) ltac:(done)).
        + destruct (decide (k = Solution)) as [->|Hk]; [by destruct (H (One n)); apply Hl|].
          by destruct (Hno "solution" (Of Solution) (Of k) (One 0) ltac:(congruence)).
        + destruct (decide (k = Solution)) as [->|Hk]; [apply Hl in H as ->; done|].
          by destruct (Hno "solution" (Of Solution) (Of k) x ltac:(congruence)).
        + by destruct (Hno "solution" (Of Solution) Of_cells x ltac:(done)).
      - intros [-> ->]. right. right. exists (One n). split; [left; by apply Hl|done]. }
    split.
    + apply map_eq. intros m. destruct (H3 Solution m) as [Ha Hb]. destruct (decide (m = n)) as [->|Hm].
      * rewrite lookup_delete. apply Ha, Hg. done.
      * rewrite lookup_delete_ne by done. apply Hb. rewrite Hg. by intros [_ ?].
    + intros k Hk. apply map_eq. intros m. apply (proj2 (H3 k m)). rewrite Hg. by intros [? _].
  - destruct (delete_as_asked [Request "cell" Of_cells [One n] []] react s t) as (s' & H1 & H2 & H3);
      [apply Forall_singleton; split_and!; [by left|by apply Forall_singleton|by constructor]|done|done|].
    exists s'. split; [done|]. split; [done|]. intros k.
    assert (forall m, gone [Request "cell" Of_cells [One n] []] k m <-> m = n) as Hg.
    { intros m. unfold gone, all_of. split.
      - intros [[_ H]|[[Hm H]|(x & [H|H] & Hw)]].
        + by destruct (H (One n)); apply Hl.
        + by destruct (Hno "cell" Of_cells (Of k) (One 0) ltac:(done)).
        + by destruct (Hno "cell" Of_cells (Of k) x ltac:(done)).
        + by apply Hl in H as ->.
      - intros ->. right. right. exists (One n). split; [right; by apply Hl|done]. }
    apply map_eq. intros m. destruct (H3 k m) as [Ha Hb]. destruct (decide (m = n)) as [->|Hm].
    + rewrite lookup_delete. by apply Ha, Hg.
    + rewrite lookup_delete_ne by done. apply Hb. by rewrite Hg.
Qed.
(** "DELETE; -cells" with a line for each cell: these cells, or, if there are none, everything *)
Theorem delete_cells_written l s t react : Forall is_int l -> idle s.1 -> react s.2 = Some t ->
  exists s', simulate [delete_cells_text l] react s = Ret (s', true) /\ idle s'.1 /\
    forall k n, s'.2 k !! n = if decide (l = [] \/ n ∈ l) then None else t k !! n.
Proof.
  intros Hl Hi Ht. set (rs := [Request "cells" Of_cells [] (map (fun i => [One i]) l)]).
  destruct (delete_as_asked rs react s t) as (s' & H1 & H2 & H3); [|done|done|].
  { apply Forall_singleton. split_and!; [by right|by constructor|]. cbn [more]. apply Forall_map. eapply Forall_impl; [exact Hl|]. intros i Hx. split; [done|]. by apply Forall_singleton. }
  assert (block_of rs = delete_cells_text l) as Hb.
  { unfold block_of, rs, delete_cells_text, request_lines. cbn [map concat name first more app]. rewrite app_nil_r, map_map. done. }
  rewrite Hb in H1. exists s'. split; [done|]. split; [done|]. intros k n.
  assert (forall x, listed Of_cells rs x <-> exists i, i ∈ l /\ x = One i) as Hx.
  { intros x. unfold listed, rs. setoid_rewrite elem_of_list_singleton. split.
    - intros (r & -> & _ & Hin). cbn [first more app] in Hin. rewrite <- flat_map_concat_map in Hin.
      apply elem_of_list_In, in_flat_map in Hin as (i & Hi1 & [<-|[]]). exists i. by rewrite elem_of_list_In.
    - intros (i & Hi1 & ->). eexists. split; [done|]. split; [done|]. cbn [first more app]. rewrite <- flat_map_concat_map.
      apply elem_of_list_In, in_flat_map. exists i. split; [by apply elem_of_list_In|by left]. }
  assert (forall x, ~ listed (Of k) rs x) as Hk.
  { intros x (r & Hr & Ha & _). apply elem_of_list_singleton in Hr as ->. done. }
  assert (gone rs k n <-> l = [] \/ n ∈ l) as Hg.
  { unfold gone, all_of. split.
    - intros [[_ H]|[[(r & Hr & Ha) _]|(x & [H|H] & Hw)]].
      + left. destruct l as [|i l']; [done|]. destruct (H (One i)). apply Hx. exists i. split; [left|done].
      + apply elem_of_list_singleton in Hr as ->. done.
      + by destruct (Hk x).
      + apply Hx in H as (i & Hi1 & ->). right. cbn in Hw. by subst n.
    - intros [->|Hn].
      + left. split; [|intros x (i & []%elem_of_nil & _)%Hx]. eexists. split; [left|done].
      + right. right. exists (One n). split; [|done]. right. apply Hx. eauto. }
  destruct (H3 k n) as [Ha Hb']. case_decide as Hd; [apply Ha|apply Hb']; by rewrite Hg.
Qed.

(** ** What is not a number *)

(** A number that is no int is taken for none: then everything of the kind is deleted. *)
Theorem delete_too_large n s t react : ~ is_int n -> idle s.1 -> react s.2 = Some t ->
  exists s', simulate [delete_solution_text n] react s = Ret (s', true) /\ s'.2 Solution = ∅ /\
    forall k, k <> Solution -> s'.2 k = t k.
Proof.
  intros Hn Hi Ht.
  assert (read_delete (delete_solution_text n) s.1 = Ret (set_item Solution (Item true ∅) (Lists (items s.1) off), true)) as Hr.
  { unfold read_delete, read, delete_solution_text. cbn [tail read_lines].
    change ("-solution") with ("-" +:+ "solution"). rewrite (get_option_name "solution" (Of Solution)) by done.
    cbn [target_of with_item items]. unfold dec. cbn [read_words].
    pose proof (numeric_span (One n)) as Hnum. cbn [span_text] in Hnum. rewrite Hnum.
    rewrite augment_ne by apply pretty_Z_ne. cbn zeta.
    pose proof (swap_mark_one n) as Hs. cbn [span_text] in Hs. rewrite Hs.
    assert ((get_int (pretty n)).1 = None) as Hg.
    { rewrite <- (app_nil_str (pretty n)).
      assert (in_int n = false) as Hin.
      { unfold in_int, int_min, int_max. unfold is_int in Hn. apply andb_false_iff. rewrite !Z.leb_gt. lia. }
      destruct (pretty_Z_cases n) as [x [(H1 & H2 & H3)|(H1 & H2 & H3)]]; rewrite H3.
      - destruct (pretty_N_digits x) as [Ha Hne]. pose proof (pretty_N_read x "" I) as Hrd.
        destruct (pretty x) as [|a u] eqn:E'; [done|]. cbn [all_digits] in Ha.
        destruct (digit_cases a (proj1 Ha)) as (? & ? & ? & Hb).
        change (String a u +:+ "") with (String a (u +:+ "")) in *. unfold get_int. cbn [skip]. rewrite Hb.
        destruct (Ascii.eqb_spec a "-"); [done|]. destruct (Ascii.eqb_spec a "+"); [done|]. rewrite Hrd.
        by rewrite <- H2, Hin.
      - change (String "-" (pretty x) +:+ "") with (String "-" (pretty x +:+ "")).
        unfold get_int. cbn [skip]. change (Raw.Model.blank "-") with false. cbn match.
        change (Ascii.eqb "-" "-") with true. cbn match. rewrite (pretty_N_read x "" I). by rewrite <- H2, Hin. }
    destruct (get_int (pretty n)) as [o r1]. cbn [fst] in Hg. subst o. cbn [obind read_words augment fst snd andb].
    by rewrite Hi. }
  eexists. split.
  { unfold simulate. cbn [read_blocks]. rewrite Hr. cbn [obind fst snd andb]. rewrite Ht. reflexivity. }
  split; [done|]. intros k Hk. cbn [delete_entities snd set_item items]. rewrite decide_False by done. by rewrite Hi.
Qed.
End C98.

(** The text of InitialPhreeqc2Module (PhreeqcRM.cpp 6380-6388) does what [Verif.Init] takes it to do. *)
Definition init_ty (k : kind) : Type :=
  match k with
  | Solution => Init.Model.ty Init.Model.SlSol | PPassemblage => Init.Model.ty Init.Model.SlPP
  | Exchange => Init.Model.ty Init.Model.SlEx | Surface => Init.Model.ty Init.Model.SlSurf
  | GasPhase => Init.Model.ty Init.Model.SlGas | SSassemblage => Init.Model.ty Init.Model.SlSS
  | Kinetics => Init.Model.ty Init.Model.SlKin | _ => unit
  end.
Definition of_init (w : Init.Model.tables) : tables init_ty := fun k =>
  match k with
  | Solution => w Init.Model.SlSol | PPassemblage => w Init.Model.SlPP | Exchange => w Init.Model.SlEx
  | Surface => w Init.Model.SlSurf | GasPhase => w Init.Model.SlGas | SSassemblage => w Init.Model.SlSS
  | Kinetics => w Init.Model.SlKin | _ => ∅
  end.
Lemma init_deleted l (w : Init.Model.tables) sl n :
  Init.Model.delete_cells l w sl !! n = if decide (l = [] \/ n ∈ l) then None else w sl !! n.
Proof.
  unfold Init.Model.delete_cells. destruct l as [|i l]; [rewrite decide_True by (by left); apply lookup_empty|].
  set (l' := (i :: l)%list) in *. assert (l' <> []) as Hne by done. clearbody l'.
  assert (foldr (fun i m => delete i m) (w sl) l' !! n = if decide (n ∈ l') then None else w sl !! n) as ->.
  { clear Hne. induction l' as [|j l' IH]; [by rewrite decide_False by (by intros []%elem_of_nil)|]. cbn [foldr].
    destruct (decide (n = j)) as [->|Hn].
    - rewrite lookup_delete, decide_True by left. done.
    - rewrite lookup_delete_ne by done. rewrite IH. destruct (decide (n ∈ l')).
      + by rewrite decide_True by (by right).
      + by rewrite decide_False by (intros [?|?]%elem_of_cons; done). }
  destruct (decide (n ∈ l')); [by rewrite decide_True by (by right)|]. by rewrite decide_False by (intros [?|?]; done).
Qed.
Theorem init_text_deletes l b (w : Init.Model.tables) : Forall is_int l -> idle b ->
  exists s', simulate [delete_cells_text l] Some (b, of_init w) = Ret (s', true) /\ idle s'.1 /\
    forall k, s'.2 k = of_init (Init.Model.delete_cells l w) k.
Proof.
  intros Hl Hb. destruct (delete_cells_written l (b, of_init w) (of_init w) Some) as (s' & H1 & H2 & H3); [done|done|done|].
  exists s'. split; [done|]. split; [done|]. intros k. apply map_eq. intros n. rewrite H3.
  destruct k; cbn [of_init init_ty]; try (by rewrite init_deleted); case_decide; done.
Qed.

(** ** Requests that take each other back *)

Definition marks : tables (fun _ => unit) := fun k => {[ 1%Z := tt; 2%Z := tt; 3%Z := tt ]}.
Definition calm : lists := Lists (fun _ => off) off.
Definition left_of (o : outcome ((lists * tables (fun _ => unit)) * bool)) (k : kind) : option (list Z) :=
  match o with Ret (s, true) => Some (map fst (map_to_list (s.2 k))) | _ => None end.
(** Naming everything and then a number keeps the other numbers, in the same block or in two. *)
Theorem delete_less_refuted :
  left_of (simulate [[["DELETE"]; ["-all"]; ["-solution"; "2"]]] Some (calm, marks)) Solution = Some [1%Z; 3%Z] /\
  left_of (simulate [[["DELETE"]; ["-all"]]] Some (calm, marks)) Solution = Some [] /\
  left_of (simulate [[["DELETE"]; ["-solution"]]; [["DELETE"]; ["-solution"; "2"]]] Some (calm, marks)) Solution = Some [1%Z; 3%Z] /\
  left_of (simulate [[["DELETE"]; ["-solution"]]] Some (calm, marks)) Solution = Some [].
Proof. by vm_compute. Qed.
(** The largest int as the end of a range: the loop does not end well. *)
Theorem delete_to_largest_refuted :
  simulate [[["DELETE"]; ["-solution"; "1-2147483647"]]] Some (calm, marks) = UB /\
  (exists s', simulate [[["DELETE"]; ["-solution"; "2147483647"]]] Some (calm, marks) = Ret s').
Proof. split; [by vm_compute|]. eexists. reflexivity. Qed.

(** A block with names, ranges and further lines; negative numbers; and what is left *)
Definition demo_requests : list request :=
  [Request "equilibrium_phases" (Of PPassemblage) [Span 3 2] []; Request "cells" Of_cells [] [[One 1%Z]; [Span (-4) (-2); One 9%Z]];
   Request "mix" (Of Mix) [] []].
Example demo_block : block_of demo_requests =
  [["DELETE"]; ["-equilibrium_phases"; "3-2"]; ["-cells"]; ["1"]; ["-4--2"; "9"]; ["-mix"]].
Proof. by vm_compute. Qed.
Example demo_sound : Forall sound_request demo_requests.
Proof.
  repeat apply Forall_cons_2; try apply Forall_nil_2; unfold sound_request; cbn [name about first more means];
    split_and!; auto; repeat apply Forall_cons_2; try apply Forall_nil_2; cbn [fits]; unfold is_int;
    try (split; [done|]; repeat apply Forall_cons_2; try apply Forall_nil_2; cbn [fits]; unfold is_int); lia.
Qed.
Example demo_left :
  let o := simulate [block_of demo_requests] Some (calm, marks) in
  left_of o PPassemblage = Some [] /\ left_of o Solution = Some [2%Z; 3%Z] /\ left_of o Mix = Some [].
Proof. by vm_compute. Qed.
(** FindComponents: surface 2 is to be deleted and is still there; written with a semicolon it would be gone. *)
Example demo_surface :
  left_of (simulate [delete_surface_text 2] Some (calm, marks)) Surface = Some [1%Z; 2%Z; 3%Z] /\
  left_of (simulate [[["DELETE"]; ["-surface"; "2"]]] Some (calm, marks)) Surface = Some [1%Z; 3%Z].
Proof. by vm_compute. Qed.
Example demo_large : left_of (simulate [delete_solution_text 99999999999] Some (calm, marks)) Solution = Some [].
Proof. by vm_compute. Qed.

Print Assumptions delete_as_asked.
Print Assumptions delete_all.
Print Assumptions delete_after_failure.
Print Assumptions find_components_deletes_nothing.
Print Assumptions delete_one.
Print Assumptions delete_cells_written.
Print Assumptions delete_too_large.
Print Assumptions init_text_deletes.
Print Assumptions delete_less_refuted.
Print Assumptions delete_to_largest_refuted.
