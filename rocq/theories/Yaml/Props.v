(** Theorems about YAML documents (C41, C64). *)
From Coq Require Import String ZArith.
From stdpp Require Import prelude strings gmap.
From Verif.Base Require Import Result.
From Verif.Yaml Require Import Model Store Spec Proofs.
Local Open Scope string_scope.
Local Open Scope list_scope.

(** C41: replaying a recorded document on an instance does what the recorded calls, made directly
    and in order, would do, whatever the methods do and wherever one of them throws. *)
Theorem yaml_replay : forall D (N : numbers D) St (run : call D -> St -> outcome St) cs s,
  faithful N -> Forall known cs -> Forall ints_ok cs ->
  played run cs s (initialize N run (record N cs) s).
Proof.
  intros D N St run cs s HN Hk Hi. rewrite record_map. revert s.
  induction cs as [|c cs IH]; intros s; [constructor|].
  apply Forall_cons in Hk as [Hk1 Hk2]. apply Forall_cons in Hi as [Hi1 Hi2].
  cbn [map initialize]. rewrite read_emit by done. cbn [obind].
  destruct (setup c) eqn:Es.
  - cbn [obind]. apply played_setup; [done|by apply IH].
  - destruct (run c s) as [s'| |] eqn:Er; cbn [obind].
    + eapply played_call; [done|done|by apply IH].
    + by apply played_throw.
    + by apply played_ub.
Qed.
Print Assumptions yaml_replay.
(** There is only one such result. *)
Theorem played_once : forall D St (run : call D -> St -> outcome St) cs s r r',
  played run cs s r -> played run cs s r' -> r = r'.
Proof.
  intros D St run cs s r r' H. revert r'.
  induction H; intros q Hq; inversion Hq; subst; try congruence; try (by apply IHplayed).
  apply IHplayed. congruence.
Qed.
Print Assumptions played_once.

(** LogMessage and SetNthSelectedOutput can be recorded, but the reader does not know them: the
    replay throws there, and the calls that follow are never made. *)
Theorem yaml_unknown_refuted : forall D (N : numbers D) St (run : call D -> St -> outcome St) cs c cs' s s',
  faithful N -> Forall known cs -> Forall ints_ok cs -> ~ known c -> played run cs s (Ret s') ->
  initialize N run (record N (cs ++ c :: cs')) s = Throw.
Proof.
  intros D N St run cs c cs' s s' HN Hk Hi Hc Hp. rewrite record_map, map_app, initialize_app.
  pose proof (yaml_replay D N St run cs s HN Hk Hi) as Hr. rewrite record_map in Hr.
  rewrite (played_once _ _ _ _ _ _ _ Hr Hp). cbn [obind map initialize]. by rewrite read_unknown.
Qed.
Print Assumptions yaml_unknown_refuted.

(** The reader looks at the places of the fields only: other names make no difference ... *)
Theorem yaml_names_ignored : forall D (N : numbers D) St (run : call D -> St -> outcome St) doc doc' s,
  Forall2 same_values doc doc' -> initialize N run doc s = initialize N run doc' s.
Proof.
  intros D N St run doc doc' s H. revert s. induction H as [|n n' doc doc' Hn _ IH]; intros s; [done|].
  assert (Hf : forall i, field n i = field n' i).
  { intros i. unfold field, same_values in *. pose proof (f_equal (fun l => l !! i) Hn) as E. simpl in E.
    change (map snd n) with (snd <$> n) in E. change (map snd n') with (snd <$> n') in E.
    rewrite !list_lookup_fmap in E. destruct (n !! i) as [p|], (n' !! i) as [p'|]; simpl in E; congruence. }
  assert (Hl : length n = length n').
  { pose proof (f_equal length Hn) as E. by rewrite !map_length in E. }
  assert (Hb : forall k, branch k (branches N) n = branch k (branches N) n').
  { intros k. unfold branches. cbn [branch fst snd]. unfold get, does, skip, arg. rewrite !Hf, !Hl. reflexivity. }
  cbn [initialize]. unfold read_node, arg. rewrite Hf.
  destruct (obind (field n' 0) as_str) as [k| |]; [|done|done]. cbn [obind]. rewrite Hb.
  destruct (branch k (branches N) n') as [o| |]; [|done|done]. cbn [obind].
  destruct (match o with Some c => run c s | None => Ret s end) as [s'| |]; [|done|done]. cbn [obind]. apply IH.
Qed.
Print Assumptions yaml_names_ignored.

(** Truth values in the place of doubles, for the cases below. *)
Definition demo_fun : numbers bool := Numbers bool text_of_bool bool_of_text.
Example demo_faithful : faithful demo_fun.
Proof. intros d. apply bool_text. Qed.
Definition demo_calls : list (call bool) :=
  [YSetGridCellCount 40; YRunFile true false true "advect.pqi"; YSetTime true;
   YInitialPhreeqc2Module_mix [1; -1]%Z [2; -1]%Z [true; false]; YSetPorosity [true; false]; YDumpModule true false].
Example demo_calls_ok : Forall known demo_calls /\ Forall ints_ok demo_calls.
Proof. split; repeat constructor; simpl; try lia; intuition. Qed.
Example demo_replay :
  initialize demo_fun (fun c l => Ret (l ++ [c])) (record demo_fun demo_calls) [] = Ret (tail demo_calls).
Proof. vm_compute. reflexivity. Qed.
Example demo_unknown :
  initialize demo_fun (fun c l => Ret (l ++ [c])) (record demo_fun [YSetTime true; YLogMessage "hello"; YRunCells]) []
  = Throw.
Proof. vm_compute. reflexivity. Qed.

(** ... but the order does: two named fields in another order are taken for each other, *)
Theorem yaml_order_refuted : exists n n' : list (string * yvalue),
  n ≡ₚ n' /\ read_node demo_fun n = Ret (Some (YDumpModule true false)) /\
  read_node demo_fun n' = Ret (Some (YDumpModule false true)).
Proof.
  exists [("key", Scalar "DumpModule"); ("dump_on", Scalar "true"); ("append", Scalar "false")],
         [("key", Scalar "DumpModule"); ("append", Scalar "false"); ("dump_on", Scalar "true")].
  split_and!; [|reflexivity|reflexivity]. constructor. apply perm_swap.
Qed.
Print Assumptions yaml_order_refuted.
(** and a field left out is read past the end of the map. *)
Theorem yaml_missing_refuted :
  read_node demo_fun [("key", Scalar "DumpModule"); ("dump_on", Scalar "true")] = UB.
Proof. reflexivity. Qed.
Print Assumptions yaml_missing_refuted.

(** The count of cells that GetGridCellCountYAML finds is the one recorded first, and 0 without. *)
Theorem yaml_cell_count : forall D (N : numbers D) cs,
  Forall ints_ok cs ->
  (forall a n b, cs = a ++ YSetGridCellCount n :: b -> (forall m, YSetGridCellCount m ∉ a) ->
     grid_cell_count (record N cs) = Ret n) /\
  ((forall m, YSetGridCellCount m ∉ cs) -> grid_cell_count (record N cs) = Ret 0%Z).
Proof.
  intros D N cs Hi. rewrite record_map.
  assert (Hskip : forall c (rest : list (call D)), (forall m, c <> YSetGridCellCount m) ->
    grid_cell_count (map (emit N) (c :: rest)) = grid_cell_count (map (emit N) rest)).
  { intros c rest Hc. destruct c; try reflexivity. exfalso. by eapply Hc. }
  split.
  - intros a n b -> Ha. apply Forall_app in Hi as [_ Hi]. apply Forall_cons in Hi as [Hi _].
    induction a as [|c a IH].
    + cbn [app map grid_cell_count]. cbn -[as_int e_int]. unfold arg. cbn -[as_int e_int].
      apply as_e_int. unfold ints_ok in Hi. cbn in Hi. by apply Forall_cons in Hi as [? _].
    + rewrite <- app_comm_cons, Hskip.
      * apply IH. intros m Hm. apply (Ha m). by right.
      * intros m ->. apply (Ha m). left.
  - induction cs as [|c cs IH]; intros H; [done|]. apply Forall_cons in Hi as [_ Hi]. rewrite Hskip.
    + apply IH; [done|]. intros m Hm. apply (H m). by right.
    + intros m ->. apply (H m). left.
Qed.
Print Assumptions yaml_cell_count.
Example demo_count : grid_cell_count (record demo_fun demo_calls) = Ret 40%Z.
Proof. vm_compute. reflexivity. Qed.

(** ** Recorders by number *)
Local Open Scope Z_scope.

Lemma to_size_small z : 0 <= z < 18446744073709551616 -> to_size z = z.
Proof. intros H. unfold to_size. by apply Z.mod_small. Qed.
Lemma to_size_neg z : int_ok z -> z < 0 -> 2147483648 <= to_size z.
Proof.
  unfold int_ok, to_size. intros H Hn. rewrite <- (Z.mod_add z 1) by lia. rewrite Z.mod_small; lia.
Qed.
Lemma to_int_small z : 0 <= z < 2147483648 -> to_int z = z.
Proof. intros H. unfold to_int. rewrite Z.mod_small by lia. lia. Qed.
Lemma creations_cons D (o : yop D) os : creations (o :: os) = (if is_create o then 1 else 0) + creations os.
Proof. unfold creations. simpl. destruct (is_create o); simpl; lia. Qed.
Lemma creations_nonneg D (os : list (yop D)) : 0 <= creations os.
Proof. unfold creations. lia. Qed.

Section Inv.
Context {D : Type} (N : numbers D).
(** The store holds exactly the recorders of [f], all numbered below [made]. *)
Definition matches (made : Z) (f : Z -> option (list (call D))) (s : store) : Prop :=
  y_next s = made /\ 0 <= made /\
  (forall i, 0 <= i -> y_docs s !! i = option_map (record N) (f i)) /\
  (forall i, (i < 0 \/ made <= i) -> f i = None).

Definition fstep (made : Z) (f : Z -> option (list (call D))) (o : yop D) (i : Z) : option (list (call D)) :=
  life i made (f i) [o].
Lemma fstep_alt made f (o : yop D) i : life i made (f i) [o] = fstep made f o i. Proof. done. Qed.

Lemma record_snoc cs (c : call D) : record N (cs ++ [c]) = record N cs ++ [emit N c].
Proof. rewrite !record_map. by rewrite map_app. Qed.

Lemma instance_life made f s i : matches made f s -> made <= 2147483648 -> int_ok i ->
  get_instance i s = option_map (record N) (f i).
Proof.
  intros (Hn & H0 & Hd & Hf) Hm Hi. unfold get_instance. destruct (decide (0 <= i)) as [Hp|Hp].
  - rewrite to_size_small by (unfold int_ok in Hi; lia). by apply Hd.
  - pose proof (to_size_neg i Hi ltac:(lia)) as Hb. rewrite (Hd (to_size i)) by lia.
    rewrite (Hf i) by lia. by rewrite (Hf (to_size i)) by lia.
Qed.

Lemma ystep_matches made f (o : yop D) s : matches made f s -> op_ok o -> made < 2147483648 ->
  matches (made + if is_create o then 1 else 0) (fstep made f o) (ystep N o s).2 /\
  (ystep N o s).1 = match o with
                    | OpCreate => made
                    | OpDestroy i | OpClear i | OpCall i _ => match f i with Some _ => 0 | None => -6 end
                    end.
Proof.
  intros Hm Ho Hmade. pose proof Hm as (Hn & H0 & Hd & Hf).
  destruct o as [|i|i|i c].
  - cbn [ystep is_create fst snd]. rewrite Hn. split; [|by apply to_int_small].
    split_and!; [cbn; by rewrite to_size_small by lia|lia| |].
    + intros i Hi. cbn [y_docs]. rewrite (Hd made) by lia. rewrite (Hf made) by lia. cbn [option_map].
      unfold fstep. cbn [life]. destruct (Z.eqb_spec i made) as [->|Hne].
      * by rewrite lookup_insert.
      * rewrite lookup_insert_ne by done. by apply Hd.
    + intros i Hi. unfold fstep. cbn [life]. destruct (Z.eqb_spec i made); [lia|]. apply Hf. lia.
  - cbn [ystep is_create]. rewrite Z.add_0_r. simpl in Ho. destruct (Z.ltb_spec i 0) as [Hneg|Hpos].
    + cbn [fst snd]. rewrite (Hf i) by lia. split; [|done]. split_and!; [done|done| |].
      * intros j Hj. rewrite (Hd j Hj). unfold fstep. cbn [life]. destruct (Z.eqb_spec i j); [lia|done].
      * intros j Hj. unfold fstep. cbn [life]. destruct (Z.eqb_spec i j) as [->|]; rewrite (Hf j Hj); done.
    + rewrite (instance_life made f s i Hm) by (done || lia). destruct (f i) as [l|] eqn:Ef; cbn [option_map fst snd].
      * split; [|done]. rewrite to_size_small by (unfold int_ok in Ho; lia). split_and!; [done|done| |].
        -- intros j Hj. cbn [y_docs]. unfold fstep. cbn [life]. destruct (Z.eqb_spec i j) as [->|Hne].
           ++ rewrite lookup_delete, Ef. done.
           ++ rewrite lookup_delete_ne by done. by apply Hd.
        -- intros j Hj. unfold fstep. cbn [life]. rewrite (Hf j Hj). by destruct (i =? j).
      * split; [|done]. split_and!; [done|done| |].
        -- intros j Hj. rewrite (Hd j Hj). unfold fstep. cbn [life]. destruct (Z.eqb_spec i j) as [->|]; [by rewrite Ef|done].
        -- intros j Hj. unfold fstep. cbn [life]. rewrite (Hf j Hj). by destruct (i =? j).
  - cbn [ystep is_create]. rewrite Z.add_0_r. simpl in Ho.
    rewrite (instance_life made f s i Hm) by (done || lia). destruct (f i) as [l|] eqn:Ef; cbn [option_map fst snd].
    + assert (0 <= i) as Hpos by (destruct (decide (0 <= i)); [done|]; rewrite (Hf i) in Ef by lia; done).
      split; [|done]. rewrite to_size_small by (unfold int_ok in Ho; lia). split_and!; [done|done| |].
      * intros j Hj. cbn [y_docs]. unfold fstep. cbn [life]. destruct (Z.eqb_spec i j) as [->|Hne].
        -- rewrite lookup_insert, Ef. done.
        -- rewrite lookup_insert_ne by done. by apply Hd.
      * intros j Hj. unfold fstep. cbn [life]. rewrite (Hf j Hj). by destruct (i =? j).
    + split; [|done]. split_and!; [done|done| |].
      * intros j Hj. rewrite (Hd j Hj). unfold fstep. cbn [life]. destruct (Z.eqb_spec i j) as [->|]; [by rewrite Ef|done].
      * intros j Hj. unfold fstep. cbn [life]. rewrite (Hf j Hj). by destruct (i =? j).
  - cbn [ystep is_create]. rewrite Z.add_0_r. simpl in Ho.
    rewrite (instance_life made f s i Hm) by (done || lia). destruct (f i) as [l|] eqn:Ef; cbn [option_map fst snd].
    + assert (0 <= i) as Hpos by (destruct (decide (0 <= i)); [done|]; rewrite (Hf i) in Ef by lia; done).
      split; [|done]. rewrite to_size_small by (unfold int_ok in Ho; lia). split_and!; [done|done| |].
      * intros j Hj. cbn [y_docs]. unfold fstep. cbn [life]. destruct (Z.eqb_spec i j) as [->|Hne].
        -- rewrite lookup_insert, Ef. cbn [option_map]. by rewrite record_snoc.
        -- rewrite lookup_insert_ne by done. by apply Hd.
      * intros j Hj. unfold fstep. cbn [life]. rewrite (Hf j Hj). by destruct (i =? j).
    + split; [|done]. split_and!; [done|done| |].
      * intros j Hj. rewrite (Hd j Hj). unfold fstep. cbn [life]. destruct (Z.eqb_spec i j) as [->|]; [by rewrite Ef|done].
      * intros j Hj. unfold fstep. cbn [life]. rewrite (Hf j Hj). by destruct (i =? j).
Qed.

Lemma life_cons i made cur (o : yop D) os :
  life i made cur (o :: os) = life i (made + if is_create o then 1 else 0) (life i made cur [o]) os.
Proof. destruct o; cbn [life is_create]; rewrite ?Z.add_0_r; reflexivity. Qed.

Lemma yrun_matches os made f s : matches made f s -> Forall op_ok os -> made + creations os < 2147483648 ->
  matches (made + creations os) (fun i => life i made (f i) os) (yrun N os s).2.
Proof.
  revert made f s. induction os as [|o os IH]; intros made f s Hm Ho Hc.
  { cbn [yrun snd life]. unfold creations. cbn [List.filter length Z.of_nat]. rewrite Z.add_0_r. exact Hm. }
  apply Forall_cons in Ho as [Ho Hos]. rewrite creations_cons in Hc |- *.
  pose proof (creations_nonneg D os). pose proof Hm as (_ & H0 & _ & _).
  destruct (ystep_matches made f o s Hm Ho) as [Hs _]; [destruct (is_create o); lia|].
  specialize (IH (made + if is_create o then 1 else 0) (fstep made f o) (ystep N o s).2 Hs Hos).
  cbn [yrun]. destruct (ystep N o s) as [r s1]. cbn [snd] in IH. destruct (yrun N os s1) as [rs s2]. cbn [snd] in *.
  rewrite Z.add_assoc. destruct (IH ltac:(destruct (is_create o); lia)) as (A & B & C & E).
  split_and!; [done|done| |].
  - intros i Hi. rewrite (C i Hi). by rewrite life_cons.
  - intros i Hi. rewrite life_cons. by apply E.
Qed.
Lemma empty_matches : matches 0 (fun _ => None) empty_store.
Proof. split_and!; done. Qed.
End Inv.

(** C64: after any history of creating, destroying, clearing and recording with fewer than 2^31
    recorders created, the document under a number is the record of the calls addressed to that
    number since the recorder was created or last cleared, and nothing under other numbers. The
    next creation answers a number never given before; any other request answers IRM_OK if its
    recorder lives and IRM_BADINSTANCE if not. *)
Theorem yaml_recorders : forall D (N : numbers D) os,
  Forall op_ok os -> creations os < 2147483647 ->
  let s := (yrun N os empty_store).2 in
  (forall id, int_ok id -> get_instance id s = option_map (record N) (recorded id os)) /\
  (ystep N OpCreate s).1 = creations os /\
  (forall o id, op_ok o -> (o = OpDestroy id \/ o = OpClear id \/ exists c, o = OpCall id c) ->
     ((ystep N o s).1 = 0 <-> recorded id os <> None) /\ ((ystep N o s).1 = -6 <-> recorded id os = None) /\
     (recorded id os = None -> forall i, int_ok i -> get_instance i (ystep N o s).2 = get_instance i s)).
Proof.
  intros D N os Ho Hc s. pose proof (creations_nonneg D os) as H0.
  pose proof (yrun_matches N os 0 (fun _ => None) empty_store (empty_matches N) Ho) as Hm.
  rewrite Z.add_0_l in Hm. specialize (Hm ltac:(lia)). fold s in Hm. fold (recorded (D := D)) in Hm.
  split_and!.
  - intros id Hid. by apply (instance_life N (creations os) _ s id Hm); [lia|].
  - destruct (ystep_matches N (creations os) _ OpCreate s Hm I) as [_ E]; [lia|exact E].
  - intros o id Hok Hs. destruct (ystep_matches N (creations os) _ o s Hm Hok) as [Hm' E]; [lia|].
    assert (Ea : (ystep N o s).1 = match recorded id os with Some _ => 0 | None => -6 end).
    { rewrite E. by destruct Hs as [-> | [-> | [c ->]]]. }
    rewrite Ea. split_and!.
    + by destruct (recorded id os).
    + by destruct (recorded id os).
    + intros Hnone i Hi. assert (is_create o = false) as Hnc by (by destruct Hs as [-> | [-> | [c ->]]]).
      rewrite Hnc, Z.add_0_r in Hm'.
      rewrite (instance_life N (creations os) _ _ i Hm') by (done || lia).
      rewrite (instance_life N (creations os) _ s i Hm) by (done || lia). f_equal. unfold fstep.
      unfold recorded in Hnone.
      destruct Hs as [-> | [-> | [c ->]]]; cbn [life]; destruct (Z.eqb_spec id i) as [->|]; try done; by rewrite Hnone.
Qed.
Print Assumptions yaml_recorders.
Example demo_recorders :
  let os := [OpCreate; OpCall 0 (YSetTime true); OpCreate; OpCall 1 YRunCells; OpClear 0; OpCall 0 YRunCells; OpDestroy 1] in
  Forall op_ok os /\ creations os = 2 /\ recorded 0 os = Some [YRunCells] /\ recorded 1 os = None /\
  (yrun demo_fun os empty_store).1 = [0; 0; 1; 0; 0; 0; 0].
Proof. split_and!; try reflexivity. repeat constructor; simpl; unfold int_ok; try lia. Qed.

(** The bound is needed: the recorder number 2^31 answers a negative number, under which
    DestroyYAMLPhreeqcRM finds nothing. *)
Theorem yaml_recorders_wrap_refuted :
  let s0 := Store 2147483648 ∅ in
  let '(id, s1) := ystep demo_fun OpCreate s0 in
  id = -2147483648 /\ (ystep demo_fun (OpDestroy id) s1).1 = -6 /\ (ystep demo_fun (OpCall id YRunCells) s1).1 = -6.
Proof. vm_compute. done. Qed.
Print Assumptions yaml_recorders_wrap_refuted.
