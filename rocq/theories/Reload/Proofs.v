From Coq Require Import ZArith String.
From stdpp Require Import prelude strings gmap sorting.
From Verif.Base Require Import Result.
From Verif.Files Require Spec Proofs Props.
From Verif.Transfer Require Import Model.
From Verif.Raw Require Import Model Spec Proofs.
From Verif.Reload Require Import Model Spec.
Open Scope Z_scope.
Open Scope list_scope.

(** * Entering maps *)
Lemma entries_in {A} (m : gmap Z A) i x : (i, x) ∈ entries m <-> m !! i = Some x.
Proof.
  unfold entries. rewrite (merge_sort_Permutation _ (map_to_list m)). apply elem_of_map_to_list.
Qed.
Lemma entries_nodup {A} (m : gmap Z A) : NoDup (entries m).*1.
Proof. unfold entries. rewrite (merge_sort_Permutation _ (map_to_list m)). apply NoDup_fst_map_to_list. Qed.

Lemma fold_put {A} (num : A -> Z) new l : forall b : gmap Z A,
  NoDup l.*1 -> (forall i x, (i, x) ∈ l -> num x = i) ->
  let r := fold_left (fun b p => <[num p.2 := new (b !! num p.2) p.2]> b) l b in
  (forall i x, (i, x) ∈ l -> r !! i = Some (new (b !! i) x)) /\ (forall i, i ∉ l.*1 -> r !! i = b !! i).
Proof.
  induction l as [|[k y] l IH]; intros b Hd Hn r; [split; [by intros ? ? ?%elem_of_nil|done]|].
  cbn [fst snd fold_left fmap list_fmap] in *. apply NoDup_cons in Hd as [Hk Hd].
  assert (num y = k) as Hy by (apply Hn; left).
  destruct (IH (<[num y := new (b !! num y) y]> b) Hd) as [H1 H2].
  { intros i x H. apply Hn. by right. }
  subst r. split.
  - intros i x H. apply elem_of_cons in H as [[= -> ->]|H].
    + rewrite H2 by done. rewrite Hy. by rewrite lookup_insert.
    + rewrite (H1 _ _ H), lookup_insert_ne; [done|]. intros E. apply Hk.
      rewrite <- Hy, E. by apply (elem_of_list_fmap_1 fst _ (i, x)).
  - intros i Hi. apply not_elem_of_cons in Hi as [Hi1 Hi2]. rewrite H2 by done.
    rewrite lookup_insert_ne; [done|]. congruence.
Qed.

Lemma put_all_at {A} (num : A -> Z) new (from to : gmap Z A) i :
  (forall i x, from !! i = Some x -> num x = i) ->
  put_all num new from to !! i = match from !! i with Some x => Some (new (to !! i) x) | None => to !! i end.
Proof.
  intros Hn. destruct (fold_put num new (entries from) to) as [H1 H2].
  { apply entries_nodup. }
  { intros k x H. by apply Hn, entries_in. }
  unfold put_all. destruct (from !! i) as [x|] eqn:E.
  - by apply H1, entries_in.
  - apply H2. intros ([k x] & -> & H)%elem_of_list_fmap. apply entries_in in H. cbn in E. congruence.
Qed.

Section Reload.
Context {D : Type}.
Local Notation reactants := (reactants (D := D)).
Local Notation entity := (entity (D := D)).
Local Notation phys := (phys (D := D)).

Lemma take_at {A} (num : A -> Z) (both : A -> A) (from : gmap Z A) i :
  (forall i x, from !! i = Some x -> num x = i /\ both x = x) ->
  put_all num (fun _ x => both x) from ∅ !! i = from !! i.
Proof.
  intros H. rewrite put_all_at by (intros k x Hk; by apply (H k x)).
  destruct (from !! i) as [x|] eqn:E; [|apply lookup_empty]. by rewrite (proj2 (H i x E)).
Qed.

Lemma both_at {A} (num en : A -> Z) (both : A -> A) (from : gmap Z A) :
  (forall x, en x = num x -> both x = x) -> (forall i x, from !! i = Some x -> num x = i /\ en x = i) ->
  forall i x, from !! i = Some x -> num x = i /\ both x = x.
Proof. intros H1 H2 i x H. destruct (H2 i x H) as [H3 H4]. split; [done|]. apply H1. congruence. Qed.

Lemma take_all_at (w : reactants) i : numbered w ->
  ph_sol (take_all w) !! i = ph_sol w !! i /\ ph_ex (take_all w) !! i = ph_ex w !! i /\
  ph_gas (take_all w) !! i = ph_gas w !! i /\ ph_kin (take_all w) !! i = ph_kin w !! i /\
  ph_pp (take_all w) !! i = ph_pp w !! i /\ ph_ss (take_all w) !! i = ph_ss w !! i /\
  ph_surf (take_all w) !! i = ph_surf w !! i /\ ph_mix (take_all w) !! i = ph_mix w !! i /\
  ph_react (take_all w) !! i = ph_react w !! i /\ ph_temp (take_all w) !! i = ph_temp w !! i.
Proof.
  intros (H1 & H2 & H3 & H4 & H5 & H6 & H7 & H8 & H9 & H10). split_and!; cbn [take_all ph_sol ph_ex ph_gas ph_kin ph_pp ph_ss ph_surf ph_mix ph_react ph_temp];
    apply take_at; eapply both_at; try eassumption; intros [] E; cbn in E; rewrite E; reflexivity.
Qed.

Lemma join_at {A} (num : A -> Z) (j : A -> A -> Z -> A) (from to : gmap Z A) i x :
  (forall i x, from !! i = Some x -> num x = i) ->
  put_all num (join_with num j) from to !! i = Some x <-> has j i (to !! i) (from !! i) x.
Proof.
  intros Hn. rewrite put_all_at by done. destruct (from !! i) as [u|] eqn:E.
  - unfold join_with. rewrite (Hn i u E). destruct (to !! i) as [s|].
    + split; [intros [= <-]; constructor|]. inversion 1; subst; done.
    + split; [intros [= <-]; constructor|]. inversion 1; subst; done.
  - destruct (to !! i) as [s|]; (split; [intros H; try done; injection H as <-; constructor|]); inversion 1; subst; done.
Qed.
Lemma alone_at {A} (j : A -> A -> Z -> A) (s : option A) i x : s = Some x <-> has j i s None x.
Proof. split; [intros ->; constructor|]. by inversion 1. Qed.

Definition kind_of (e : entity) : kind :=
  match e with
  | ESolution _ => Files.Model.Solution | EExchange _ => Files.Model.Exchange | EGas _ => Files.Model.GasPhase
  | EKinetics _ => Files.Model.Kinetics | EPP _ => Files.Model.PPassemblage | ESS _ => Files.Model.SSassemblage
  | ESurface _ => Files.Model.Surface | EMix _ => Files.Model.Mix | EReaction _ => Files.Model.Reaction
  | ETemp _ => Files.Model.Temperature | EPress _ => Files.Model.Pressure
  end.

Lemma bin_at (j : joins (D := D)) uz (w : worker (D := D)) i e : numbered w.1 -> numbered w.2 ->
  kind_of e <> Files.Model.Pressure -> stored (bin j uz w) i e <-> cell_has j uz w i e.
Proof.
  intros H1 H2 He. destruct (take_all_at w.1 i H1) as (T1 & T2 & T3 & T4 & T5 & T6 & T7 & T8 & T9 & T10).
  destruct H2 as (U1 & U2 & U3 & U4 & U5 & U6 & U7 & U8 & U9 & U10).
  unfold bin, also. destruct uz.
  - destruct e; cbn [stored cell_has add_uz ph_sol ph_ex ph_gas ph_kin ph_pp ph_ss ph_surf ph_mix ph_react ph_temp also];
      rewrite ?join_at by (intros; naive_solver).
    + by rewrite T1.
    + by rewrite T2.
    + by rewrite T3.
    + by rewrite T4.
    + by rewrite T5.
    + by rewrite T6.
    + by rewrite T7.
    + by rewrite T8.
    + by rewrite T9.
    + by rewrite T10.
    + done.
  - destruct e; cbn [stored cell_has also]; rewrite <- ?alone_at; try rewrite ?T1, ?T2, ?T3, ?T4, ?T5, ?T6, ?T7, ?T8, ?T9, ?T10; done.
Qed.

Lemma cell_has_place (j : joins (D := D)) uz (w : worker (D := D)) i e : numbered w.1 -> numbered w.2 -> numbering j ->
  cell_has j uz w i e -> (place e).2 = i.
Proof.
  intros (N1 & N2 & N3 & N4 & N5 & N6 & N7 & N8 & N9 & N10) (U1 & U2 & U3 & U4 & U5 & U6 & U7 & U8 & U9 & U10) (J1 & J2 & J3 & J4 & J5 & J6).
  unfold cell_has, also.
  destruct e as [x|x|x|x|x|x|x|x|x|x|x]; cbn [place snd]; [intros H; by apply N1|..|intros H; by apply N8
    |intros H; by apply N9|intros H; by apply N10|done];
    (inversion 1 as [? Hs Hu|? Hs Hu|? ? Hs Hu]; subst;
     [naive_solver|destruct uz; [naive_solver|done]|done]).
Qed.

Lemma at_place_has (j : joins (D := D)) uz (ws : list worker) c k i e :
  Forall (fun w => numbered w.1 /\ numbered w.2) ws ->
  at_place (bin j uz <$> ws) (c, k, i) = Some e <-> exists w, ws !! c = Some w /\ cell_has j uz w i e /\ kind_of e = k.
Proof.
  intros Hw. unfold at_place. cbn [fst snd]. rewrite list_lookup_fmap. destruct (ws !! c) as [w|] eqn:E; cbn [fmap option_fmap option_map].
  2:{ split; [done|]. by intros (w & ? & _). }
  rewrite Forall_forall in Hw. destruct (Hw w) as [N1 N2]; [by eapply elem_of_list_lookup_2|].
  destruct (decide (kind_of e = Files.Model.Pressure)) as [Hp|Hp].
  { destruct e as [x|x|x|x|x|x|x|x|x|x|x]; try done. split; [|by intros (? & _ & [] & _)]. destruct k; try done; by intros (? & ? & [= ])%fmap_Some. }
  trans (stored (bin j uz w) i e /\ kind_of e = k).
  - destruct e, k; cbn [kind_of stored]; try (split; [|by intros [_ ?]]; try done;
      by intros (? & ? & [= ])%fmap_Some);
    (rewrite fmap_Some; split; [intros (y & Hy & [= <-]); done|intros [Hy _]; by eexists]).
  - rewrite bin_at by done. split; [intros [? ?]; by exists w|]. intros (w' & [= <-] & ? & ?). done.
Qed.

(** * The file *)
Lemma text_dump rnd (f : nat * kind * Z -> option entity) (items : list (nat * kind * Z)) g :
  (forall it, it ∈ items -> g it = dump_entity rnd <$> f it) ->
  Files.Model.worker_text g items = dump rnd (omap f items).
Proof.
  induction items as [|it items IH]; intros H; [done|]. unfold Files.Model.worker_text in *. cbn [map concat omap list_omap].
  rewrite (H it) by left. rewrite IH by (intros; apply H; by right).
  destruct (f it); done.
Qed.

Lemma bodies_app (a b : list phys) : match b with [] | Head _ _ _ :: _ => True | _ => False end ->
  bodies (a ++ b) = bodies a.
Proof. intros H. induction a as [|[] a IH]; cbn; [by destruct b as [|[]]|done|by rewrite IH]. Qed.
Lemma read_file_app dcmp lit (a b : list phys) : match b with [] | Head _ _ _ :: _ => True | _ => False end ->
  forall st, read_file dcmp lit (a ++ b) st = read_file dcmp lit b (read_file dcmp lit a st).
Proof.
  intros H. induction a as [|[k n t|l] a IH]; intros st; [done| |].
  - cbn [app read_file]. rewrite IH. by rewrite bodies_app.
  - cbn [app read_file]. apply IH.
Qed.

Lemma omap_in {A B} (f : A -> option B) (l : list A) y : y ∈ omap f l <-> exists x, x ∈ l /\ f x = Some y.
Proof. apply elem_of_list_omap. Qed.
Lemma omap_places {A B C} (f : A -> option B) (p : B -> C) (l : list A) : NoDup l ->
  (forall x y a b, x ∈ l -> y ∈ l -> f x = Some a -> f y = Some b -> p a = p b -> x = y) -> NoDup (p <$> omap f l).
Proof.
  induction l as [|x l IH]; intros Hd H; [constructor|]. apply NoDup_cons in Hd as [Hx Hd].
  cbn [omap list_omap]. destruct (f x) as [a|] eqn:E.
  - rewrite fmap_cons. constructor.
    + intros (b & Hb & (y & Hy & Hf)%omap_in)%elem_of_list_fmap. apply Hx.
      rewrite (H x y a b); [done|left|by right|done|done|done].
    + apply IH; [done|]. intros. eapply H; try eassumption; by right.
  - apply IH; [done|]. intros. eapply H; try eassumption; by right.
Qed.

Lemma place_kind (a b : entity) : (place a).1 = (place b).1 <-> kind_of a = kind_of b.
Proof. destruct a, b; done. Qed.
Lemma alike_kind (a b : entity) : alike a b <-> kind_of a = kind_of b.
Proof. destruct a, b; done. Qed.
Lemma kind_dumped (j : joins (D := D)) uz w i (e : entity) : cell_has j uz w i e -> kind_of e <> Files.Model.Pressure.
Proof. by destruct e. Qed.

Lemma reload_all dcmp lit rnd (j : joins (D := D)) uz append (ws : list worker)  ranges n g fails block old r r1 :
  (0 < g)%nat -> 0 < block -> Files.Spec.partition ranges n ->
  Forall (fun w => numbered w.1 /\ numbered w.2) ws -> numbering j ->
  (forall i e, module_has j uz ws ranges i e -> fits dcmp rnd keywords e) ->
  (dump_workers j rnd uz append ws ranges g fails block old).2 = IRM_OK ->
  read_file dcmp lit (if append then default [] old else []) (r, 0%nat) = (r1, 0%nat) ->
  exists r', read_file dcmp lit (List.last (dump_workers j rnd uz append ws ranges g fails block old).1 []) (r, 0%nat)
      = (r', 0%nat) /\
    (forall i e, module_has j uz ws ranges i e -> exists e', restored lit rnd e e' /\ stored r' i e') /\
    (forall i e', (forall e, module_has j uz ws ranges i e -> ~ alike e e') -> stored r' i e' <-> stored r1 i e').
Proof.
  intros Hg Hb [Hp Hr] Hw Hj Hf Hok Hold.
  assert (forall r0, r0 ∈ ranges -> 0 <= r0.1) as Hr0.
  { intros r0 [c Hc]%elem_of_list_lookup. by apply (Hr c r0). }
  destruct (Files.Props.dump_exact block ranges Hb Hr0) as [Hnd Hin].
  destruct (Files.Props.dump_complete g fails append (lines_at rnd (bin j uz <$> ws)) block ranges old Hg)
    as (_ & _ & Hfile).
  unfold dump_workers in *. rewrite (Hfile Hok).
  rewrite (text_dump rnd (at_place (bin j uz <$> ws))).
  2:{ done. }
  rewrite read_file_app by apply dump_head. rewrite Hold.
  set (es := omap (at_place (bin j uz <$> ws)) (Files.Model.dump_items block ranges)).
  assert (forall e, e ∈ es <-> module_has j uz ws ranges (place e).2 e) as Hes.
  { intros e. unfold es. rewrite omap_in. split.
    - intros ([[c k] i] & Hi & He). apply at_place_has in He as (w & Hc & He & <-); [|done].
      apply Hin in Hi as (rg & Hrg & _ & Hi). cbn [fst snd] in *.
      rewrite Forall_forall in Hw. destruct (Hw w) as [N1 N2]; [by eapply elem_of_list_lookup_2|].
      rewrite (cell_has_place j uz w i e N1 N2 Hj He). by exists c, w, rg.
    - intros (c & w & rg & Hc & Hrg & Hi & He). exists (c, kind_of e, (place e).2). split.
      + apply Hin. exists rg. split; [done|]. split; [by apply (kind_dumped j uz w (place e).2)|done].
      + apply at_place_has; [done|]. by exists w. }
  assert (forall i e, module_has j uz ws ranges i e -> (place e).2 = i) as Hpl.
  { intros i e (c & w & rg & Hc & _ & _ & He). rewrite Forall_forall in Hw.
    destruct (Hw w) as [N1 N2]; [by eapply elem_of_list_lookup_2|]. by apply (cell_has_place j uz w i e N1 N2 Hj). }
  destruct (file_read dcmp lit rnd es r1 0%nat) as (r' & H1 & H2 & H3).
  - apply omap_places; [done|]. intros [[c k] i] [[c' k'] i'] a b Hi Hi' Ha Hb' E.
    apply at_place_has in Ha as (w & Hc & Ha & <-); [|done]. apply at_place_has in Hb' as (w' & Hc' & Hb' & <-); [|done].
    apply Hin in Hi as (rg & Hrg & _ & Hi). apply Hin in Hi' as (rg' & Hrg' & _ & Hi'). cbn [fst snd] in *.
    assert ((place a).2 = i) as Pa by (apply Hpl; by exists c, w, rg).
    assert ((place b).2 = i') as Pb by (apply Hpl; by exists c', w', rg').
    assert (i = i') as <- by congruence. assert (kind_of a = kind_of b) as -> by (apply place_kind; congruence).
    destruct (Hr c rg Hrg) as [B1 B2].
    destruct (Hp i) as (q & _ & Hq); [lia|].
    assert (q = c) as <- by (apply Hq; by exists rg). assert (q = c') as <- by (apply Hq; by exists rg'). done.
  - apply Forall_forall. intros e He. apply (Hf (place e).2). by apply Hes.
  - exists r'. split; [exact H1|]. split.
    + intros i e He. pose proof (Hpl i e He) as <-. apply H2. by apply Hes.
    + intros i e' He'. apply H3. intros (e & E & He)%elem_of_list_fmap. pose proof (f_equal fst E) as E1. pose proof (f_equal snd E) as E2. cbn [fst snd] in E1, E2.
      apply Hes in He. rewrite <- E2 in He. apply (He' e He). apply alike_kind, place_kind. congruence.
Qed.
End Reload.
