(** Properties C35, C36, C37, C59: settings. *)
From Coq Require Import ZArith.
From stdpp Require Import prelude.
From Verif.Base Require Import Result.
From Verif.Settings Require Import Model Spec Proofs.

(** ** C35 *)

(** An accepted unit is a documented one and is the only thing that changes; any other value
    changes nothing and yields IRM_INVALIDARG. *)
Theorem units_exact {D} (k : units) (u : Z) (s : settings D) :
  (u ∈ documented k ->
     (set_units k u s).2 = Returned IRM_OK /\ s_units (set_units k u s).1 k = u /\
     (forall k', k' <> k -> s_units (set_units k u s).1 k' = s_units s k') /\
     s_mode (set_units k u s).1 = s_mode s /\ s_vec (set_units k u s).1 = s_vec s /\
     s_mask (set_units k u s).1 = s_mask s /\ s_flag (set_units k u s).1 = s_flag s /\
     s_scalar (set_units k u s).1 = s_scalar s /\ s_old_sat (set_units k u s).1 = s_old_sat s /\
     s_cells (set_units k u s).1 = s_cells s) /\
  (u ∉ documented k -> set_units k u s = (s, return_handler (s_mode s) IRM_INVALIDARG)).
Proof.
  rewrite <- unit_ok_documented. unfold set_units. split.
  - intros ->. split_and!; try done; [apply upd_same|]. intros k' Hk. by apply upd_other.
  - intros H. by destruct (unit_ok k u).
Qed.
Print Assumptions units_exact.

(** Whatever calls are made, every unit is a documented one and the mode is one of 0..3. *)
Theorem units_always_documented {D} (inactive one : D) nxyz back openmp (cs : list (call D)) (s : settings D) :
  (forall k, s_units s k ∈ documented k) -> (0 <= s_mode s <= 3)%Z ->
  let s' := do_calls inactive nxyz back openmp one cs s in
  (forall k, s_units s' k ∈ documented k) /\ (0 <= s_mode s' <= 3)%Z.
Proof.
  intros Hu Hm. unfold do_calls. revert s Hu Hm. induction cs as [|c cs IH]; intros s Hu Hm; simpl; [done|].
  assert (Hc : (forall k, s_units (do_call inactive nxyz back openmp one c s).1 k ∈ documented k) /\
    (0 <= s_mode (do_call inactive nxyz back openmp one c s).1 <= 3)%Z).
  { destruct c as [k u|i|k l|m|k b|w i u|k d|k]; cbn [do_call].
    - destruct (units_exact k u s) as [H1 H2]. destruct (decide (u ∈ documented k)) as [H|H].
      + destruct (H1 H) as (_ & E1 & E2 & E3 & _). rewrite E3. split; [|done]. intros k'.
        destruct (decide (k' = k)) as [->|Hk]; [by rewrite E1|]. by rewrite E2.
      + by rewrite H2.
    - unfold set_error_mode. destruct (Z.ltb_spec i 0); [split; [done|simpl; lia]|].
      destruct (Z.ltb_spec i 3); [split; [done|simpl; lia]|].
      destruct (openmp && (i =? 3)%Z) eqn:E; [|split; [done|simpl; lia]].
      apply andb_true_iff in E as [_ E]. split; [done|simpl; lia].
    - unfold set_property, set_generic. destruct (length l <? nxyz); [done|]. cbn [snd].
      destruct k; try done; by destruct (push _ _ _ _).
    - unfold set_print_mask. by destruct (length m <? nxyz).
    - destruct k; try done. by destruct b.
    - done.
    - done.
    - unfold get_property. destruct k; try done; by destruct (gather _ _ _ _). }
  destruct Hc as [Hc1 Hc2]. exact (IH _ Hc1 Hc2).
Qed.
Print Assumptions units_always_documented.
Definition blank : settings Z :=
  Settings 0 (fun k => if decide (k = USolution) then 1%Z else 0%Z) (fun _ => [5; 5; 5]%Z) [1; 1; 1]%Z
    (fun _ => false) (fun _ => 0%Z) [] [Cell (Some (25, 1)%Z) (Some (true, 1%Z)); Cell None None].
Example units_example :
  let s := do_calls (-9)%Z 3 [[0; 2]; [1]] true 1%Z
    [CUnits USolution 3; CUnits USolution 4; CUnits UGas 2; CUnits UGas (-1); CMode 3] blank in
  s_units s USolution = 3%Z /\ s_units s UGas = 2%Z /\ s_units s UPP = 0%Z /\ s_mode s = 3%Z.
Proof. vm_compute. done. Qed.

(** An undocumented error mode is reported but the previous mode is lost. *)
Theorem error_mode_refuted {D} (openmp : bool) (i : Z) (s : settings D) :
  (i < 0 \/ 3 < i)%Z ->
  set_error_mode openmp i s = (set_mode 0 s, Returned IRM_INVALIDARG).
Proof.
  intros H. unfold set_error_mode. destruct (Z.ltb_spec i 0); [done|].
  destruct (Z.ltb_spec i 3); [lia|]. destruct (Z.eqb_spec i 3); [lia|]. by rewrite andb_false_r.
Qed.
Print Assumptions error_mode_refuted.
Example error_mode_example : s_mode (set_error_mode true 7 (set_mode 1 blank)).1 = 0%Z.
Proof. reflexivity. Qed.

(** ** C36 *)

(** Too short a vector is reported as a failure and changes nothing. *)
Theorem property_short {D} nxyz back (k : vec) (l : list D) (s : settings D) :
  length l < nxyz -> set_property nxyz back k l s = (s, return_handler (s_mode s) IRM_FAIL).
Proof.
  intros H. unfold set_property, set_generic. by destruct (Nat.ltb_spec (length l) nxyz); [|lia].
Qed.
Print Assumptions property_short.

(** Otherwise the call succeeds, value [i] becomes the property of grid cell [i], and nothing else
    changes, except that temperature and pressure also reach the solutions (and pressure the
    fixed-pressure gas phases) of the chemistry cells, with the value of their first grid cell. *)
Theorem property_set {D} nxyz back (k : vec) (l : list D) (s : settings D) :
  mapping_ok nxyz back -> length (s_cells s) <= length back -> nxyz <= length l ->
  let r := set_property nxyz back k l s in
  r.2 = Returned IRM_OK /\
  (forall i, s_vec r.1 k !! i = l !! i) /\
  (forall k', k' <> k -> s_vec r.1 k' = s_vec s k') /\
  s_mode r.1 = s_mode s /\ s_units r.1 = s_units s /\ s_mask r.1 = s_mask s /\ s_flag r.1 = s_flag s /\
  s_scalar r.1 = s_scalar s /\ s_old_sat r.1 = s_old_sat s /\
  length (s_cells r.1) = length (s_cells s) /\
  (forall j c, s_cells s !! j = Some c ->
     exists i b v c', back !! j = Some (i :: b) /\ l !! i = Some v /\ s_cells r.1 !! j = Some c' /\
       c_sol c' = match c_sol c with
                  | Some (t, p) => Some (if decide (k = VTemperature) then v else t,
                                         if decide (k = VPressure) then v else p)
                  | None => None
                  end /\
       c_gas c' = match c_gas c with
                  | Some (fixed, p) => Some (fixed, if decide (k = VPressure /\ fixed = true) then v else p)
                  | None => None
                  end).
Proof.
  intros Hok Hlen Hl r. subst r. unfold set_property, set_generic.
  destruct (Nat.ltb_spec (length l) nxyz); [lia|]. cbn [fst snd].
  assert (Hdef : forall j c, s_cells s !! j = Some c -> exists i b v, back !! j = Some (i :: b) /\ l !! i = Some v).
  { intros j c Hj. destruct (lookup_lt_is_Some_2 back j) as [b Hb].
    { apply lookup_lt_Some in Hj. lia. }
    destruct Hok as [H1 _]. destruct (H1 j b Hb) as [Hne Hi]. destruct b as [|i b]; [done|].
    destruct (lookup_lt_is_Some_2 l i) as [v Hv]; [specialize (Hi i); feed specialize Hi; [by left|lia]|].
    by exists i, b, v. }
  destruct (match k with VTemperature => Some push_temperature | VPressure => Some push_pressure | _ => None end)
    as [f|] eqn:Ek.
  - destruct (push_total f l back (s_cells s) nxyz Hok Hlen Hl) as [cs Hcs]. rewrite Hcs. cbn [fst snd].
    apply push_spec in Hcs as [P1 P2]. split_and!; try done.
    + intros i. cbn. by rewrite upd_same.
    + intros k' Hk. cbn. by apply upd_other.
    + intros j c Hj. destruct (P2 j c Hj) as (i & b & v & E1 & E2 & E3).
      exists i, b, v, (f v c). split_and!; [done|done|done| |].
      * destruct k; try done; injection Ek as <-; cbn; destruct (c_sol c) as [[t p]|]; done.
      * destruct k; try done; injection Ek as <-; cbn; destruct (c_gas c) as [[[] p]|]; done.
  - split_and!; try done.
    + intros i. cbn. by rewrite upd_same.
    + intros k' Hk. cbn. by apply upd_other.
    + intros j c Hj. destruct (Hdef j c Hj) as (i & b & v & E1 & E2). exists i, b, v, c.
      split_and!; [done|done|done| |].
      * destruct k; try done; destruct (c_sol c) as [[t p]|]; done.
      * destruct k; try done; destruct (c_gas c) as [[[] p]|]; done.
Qed.
Print Assumptions property_set.
Lemma example_mapping : mapping_ok 3 [[0; 2]; [1]].
Proof.
  split.
  - intros [|[|j]] b [= <-]; (split; [done|]); intros i Hi; rewrite !elem_of_cons, elem_of_nil in Hi; lia.
  - intros [|[|j]] [|[|j']] b b' i [= <-] [= <-]; rewrite !elem_of_cons, elem_of_nil; lia.
Qed.
Example property_example :
  let r := set_property 3 [[0; 2]; [1]] VPressure [2; 3; 4; 9]%Z blank in
  r.2 = Returned IRM_OK /\ s_vec r.1 VPressure = [2; 3; 4; 9]%Z /\
  s_cells r.1 = [Cell (Some (25, 2)%Z) (Some (true, 2%Z)); Cell None None] /\
  s_vec r.1 VTemperature = [5; 5; 5]%Z.
Proof. vm_compute. done. Qed.

(** The mask of cells to print. *)
Theorem mask_set {D} nxyz (m : list Z) (s : settings D) :
  (length m < nxyz -> set_print_mask nxyz m s = (s, return_handler (s_mode s) IRM_INVALIDARG)) /\
  (nxyz <= length m -> (set_print_mask nxyz m s).2 = Returned IRM_OK /\ s_mask (set_print_mask nxyz m s).1 = m /\
     s_vec (set_print_mask nxyz m s).1 = s_vec s /\ s_cells (set_print_mask nxyz m s).1 = s_cells s).
Proof. unfold set_print_mask. split; intros H; destruct (Nat.ltb_spec (length m) nxyz); done || lia. Qed.
Print Assumptions mask_set.

(** A history of property calls: the last long enough vector for a property is what it holds. *)
Theorem property_last {D} (inactive one : D) nxyz back openmp (k : vec) (l : list D) (cs : list (call D)) (s : settings D) :
  mapping_ok nxyz back -> length (s_cells s) <= length back -> nxyz <= length l ->
  Forall (fun c => match c with CVec k' l' => k' = k -> length l' < nxyz | CGet k' => k' <> k | _ => True end) cs ->
  s_vec (do_calls inactive nxyz back openmp one cs (set_property nxyz back k l s).1) k = l.
Proof.
  intros Hok Hlen Hl Hcs.
  assert (H0 : s_vec (set_property nxyz back k l s).1 k = l).
  { destruct (property_set nxyz back k l s Hok Hlen Hl) as (_ & H & _). by apply list_eq. }
  revert H0. generalize (set_property nxyz back k l s).1. unfold do_calls.
  induction Hcs as [|c cs Hc Hcs IH]; intros t Ht; simpl; [done|]. apply IH. clear IH Hcs.
  destruct c as [k' u|i|k' l'|m|k' b|w i u|k' d|k']; cbn [do_call].
  - unfold set_units. by destruct (unit_ok k' u).
  - unfold set_error_mode. destruct (i <? 0)%Z; [done|]. destruct (i <? 3)%Z; [done|].
    by destruct (openmp && _).
  - unfold set_property, set_generic. destruct (Nat.ltb_spec (length l') nxyz) as [|Hge]; [done|].
    assert (Hne : k <> k') by (intros ->; specialize (Hc eq_refl); lia). cbn [fst snd].
    destruct k'; try (cbn; by rewrite upd_other); destruct (push _ _ _ _); cbn; by rewrite upd_other.
  - unfold set_print_mask. by destruct (length m <? nxyz).
  - destruct k'; try done. by destruct b.
  - done.
  - done.
  - unfold get_property. destruct k'; try done; destruct (gather _ _ _ _); cbn; try done; by rewrite upd_other.
Qed.
Print Assumptions property_last.
Example property_last_example :
  s_vec (do_calls (-9)%Z 3 [[0; 2]; [1]] true 1%Z [CVec VPorosity [1]%Z; CMode 1; CVec VPressure [7; 8; 9]%Z]
    (set_property 3 [[0; 2]; [1]] VPorosity [2; 3; 4]%Z blank).1) VPorosity = [2; 3; 4]%Z.
Proof. vm_compute. done. Qed.

(** ** C37 *)

(** Success returns in every mode; a failure returns its code in mode 0, throws in mode 1 and ends
    the process with its code in mode 2. *)
Theorem error_modes (r : irm_result) :
  (forall mode, return_handler mode IRM_OK = Returned IRM_OK) /\
  (r <> IRM_OK -> return_handler 0 r = Returned r /\ return_handler 1 r = Thrown /\ return_handler 2 r = Exited r) /\
  (forall mode, return_handler mode r = Returned IRM_OK -> r = IRM_OK).
Proof.
  split; [done|]. split; [by destruct r|].
  intros mode. unfold return_handler. destruct r; simpl; try done;
    destruct (mode =? 0)%Z; try done; destruct (mode =? 1)%Z; try done; by destruct (mode =? 2)%Z.
Qed.
Print Assumptions error_modes.

(** The codes of the engine are passed on: known codes as they are, other negative ones as
    IRM_FAIL, positive ones as success or failure as the caller chooses. *)
Theorem codes_passed_on (i : Z) (positive_ok : bool) :
  ((-7 <= i <= 0)%Z -> irm_code (int2irm i positive_ok) = i) /\
  ((i < -7)%Z -> int2irm i positive_ok = IRM_FAIL) /\
  ((0 < i)%Z -> int2irm i positive_ok = if positive_ok then IRM_OK else IRM_FAIL).
Proof.
  unfold int2irm. split_and!; intros H.
  - destruct (Z.ltb_spec 0 i); [lia|]. rewrite andb_false_r. destruct (Z.ltb_spec i 0); [|simpl; lia].
    repeat match goal with |- context [(i =? ?k)%Z] => destruct (Z.eqb_spec i k); [simpl; lia|] end. simpl. lia.
  - destruct (Z.ltb_spec 0 i); [lia|]. rewrite andb_false_r. destruct (Z.ltb_spec i 0); [|lia].
    repeat match goal with |- context [(i =? ?k)%Z] => destruct (Z.eqb_spec i k); [lia|] end. done.
  - destruct (Z.ltb_spec 0 i); [|lia]. rewrite andb_true_r. destruct (Z.ltb_spec i 0); [lia|]. by destruct positive_ok.
Qed.
Print Assumptions codes_passed_on.
Example codes_example : int2irm (-4) false = IRM_INVALIDROW /\ int2irm (-20) true = IRM_FAIL /\ int2irm 3 false = IRM_FAIL.
Proof. done. Qed.

(** ** C59 *)

(** GetTemperature and GetPressure: a grid cell whose chemistry cell has a solution shows that
    solution's value; every other grid cell shows whatever the stored vector held. The stored
    vector becomes what was returned. *)
Theorem get_property_value {D} (inactive : D) nxyz back (k : vec) (s : settings D) :
  mapping_ok nxyz back -> length (s_cells s) <= length back -> k = VTemperature \/ k = VPressure ->
  exists l, get_property inactive nxyz back k s = (set_vec k l s, Some l) /\ length l = nxyz /\
    (forall j c t p b i, s_cells s !! j = Some c -> c_sol c = Some (t, p) -> back !! j = Some b -> i ∈ b ->
       l !! i = Some (if decide (k = VTemperature) then t else p)) /\
    (forall i, i < nxyz -> (forall j c b, s_cells s !! j = Some c -> is_Some (c_sol c) -> back !! j = Some b -> i ∉ b) ->
       l !! i = Some (default inactive (s_vec s k !! i))).
Proof.
  intros Hok Hlen Hk. unfold get_property.
  assert (exists f, (match k with VPressure => Some snd | VTemperature => Some fst | _ => None end) = Some f /\
    forall t p : D, f (t, p) = if decide (k = VTemperature) then t else p) as (f & -> & Hf).
  { destruct Hk as [-> | ->]; eexists; done. }
  destruct (gather_total f nxyz back (s_cells s) (resize_vec nxyz inactive (s_vec s k)) Hok Hlen) as [l Hl].
  { by rewrite resize_length. }
  rewrite Hl. exists l. split; [done|]. destruct Hok as [_ Hd].
  destruct (gather_spec f back _ _ _ Hd Hl) as (G1 & G2 & G3). rewrite resize_length in G1.
  split; [done|]. split.
  - intros j c t p b i Hj Hc Hb Hi. rewrite <- Hf. by eapply G2.
  - intros i Hi Hn. rewrite G3; [by apply resize_lookup|]. intros j c v b Hj Hc Hb. apply (Hn j c b Hj); [by eexists|done].
Qed.
Print Assumptions get_property_value.

(** A cell without chemistry reports the value last set, not the inactive value; and asking
    changes what is stored for the cells that share a chemistry cell. *)
Theorem get_property_refuted :
  let s := (set_property 4 [[0; 2]; [1]] VTemperature [10; 20; 30; 40]%Z blank).1 in
  get_property (-9)%Z 4 [[0; 2]; [1]] VTemperature s =
    (set_vec VTemperature [10; 20; 10; 40]%Z s, Some [10; 20; 10; 40]%Z).
Proof. vm_compute. done. Qed.
Print Assumptions get_property_refuted.
