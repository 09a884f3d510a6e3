(** Proofs about the automatic output variables. *)
From Coq Require Import String Ascii.
From stdpp Require Import prelude strings gmap sorting.
From Verif.Base Require Import Result.
From Verif.Names Require Import Model Spec Proofs.
From Verif.Find Require Proofs.
From Verif.SelOut Require Import Model Spec Proofs GetProofs Props Select.
From Verif.Auto Require Import Model Spec.
Open Scope string_scope.
Open Scope list_scope.

(** ** Characters *)

Lemma chars_app a b : chars (a +:+ b) = chars a ++ chars b.
Proof. induction a as [|c a IH]; [done|]. change (String c a +:+ b) with (String c (a +:+ b)). cbn. by rewrite IH. Qed.
Lemma chars_inj a b : chars a = chars b -> a = b.
Proof. intros H. rewrite <- (string_of_list_ascii_of_string a), H. apply string_of_list_ascii_of_string. Qed.
Lemma chars_of l : chars (string_of_list_ascii l) = l.
Proof. apply list_ascii_of_string_of_list_ascii. Qed.
Lemma chars_nil a : chars a = [] <-> a = "".
Proof. split; [|by intros ->]. by destruct a. Qed.

Lemma is_delimiter_spec c : is_delimiter c = true <-> separator c.
Proof.
  unfold is_delimiter, separator. rewrite !orb_true_iff, !Ascii.eqb_eq. set_solver.
Qed.
Lemma is_space_spec c : is_space c = true <-> blank c.
Proof.
  unfold blank. split.
  - destruct c as [[] [] [] [] [] [] [] []]; vm_compute; try discriminate; intros _;
      repeat (first [left; fail | apply elem_of_list_here | apply elem_of_list_further]).
  - intros H. repeat (apply elem_of_cons in H as [->|H]; [done|]). by apply elem_of_nil in H.
Qed.
Global Instance separator_dec c : Decision (separator c).
Proof. unfold separator. apply _. Defined.
Global Instance blank_dec c : Decision (blank c).
Proof. unfold blank. apply _. Defined.

Lemma trim_left_spec s : exists l, chars s = l ++ chars (trim_left s) /\ Forall blank l /\
  ~ starts_in blank (chars (trim_left s)).
Proof.
  induction s as [|c s IH]; cbn [trim_left].
  - exists []. split; [done|]. split; [constructor|]. by intros (? & ? & ? & _).
  - destruct (is_space c) eqn:E.
    + destruct IH as (l & E1 & Hl & Hs). exists (c :: l). split; [cbn; by rewrite E1|].
      split; [|done]. constructor; [by apply is_space_spec|done].
    + exists []. split; [done|]. split; [constructor|]. intros (l & c' & [= <- _] & H%is_space_spec). congruence.
Qed.
Lemma trim_right_spec s : exists r, chars s = chars (trim_right s) ++ r /\ Forall blank r /\
  ~ ends_in blank (chars (trim_right s)).
Proof.
  induction s as [|c s IH]; cbn [trim_right].
  - exists []. split; [done|]. split; [constructor|]. intros (l & c & H & _). by destruct l.
  - destruct IH as (r & E1 & Hr & Hs). destruct (trim_right s) as [|c' s'] eqn:E.
    + destruct (is_space c) eqn:Ec.
      * exists (c :: r). split; [cbn; by rewrite E1|]. split; [constructor; [by apply is_space_spec|done]|].
        intros (l & c' & H & _). by destruct l.
      * exists r. split; [cbn; by rewrite E1|]. split; [done|]. intros (l & c' & H & Hb).
        destruct l as [|? [|]]; [|done|done]. injection H as ->. apply is_space_spec in Hb. congruence.
    + exists r. split; [cbn; by rewrite E1|]. split; [done|]. intros (l & c1 & H & Hb).
      destruct l as [|c2 l]; [done|]. injection H as -> H. apply Hs. by exists l, c1.
Qed.
(** What both do together, and that this determines the result. *)
Lemma trim_both s : exists l r, chars s = l ++ chars (trim_left (trim_right s)) ++ r /\
  Forall blank l /\ Forall blank r /\ ~ starts_in blank (chars (trim_left (trim_right s))) /\
  ~ ends_in blank (chars (trim_left (trim_right s))).
Proof.
  destruct (trim_right_spec s) as (r & Er & Hr & Ne). destruct (trim_left_spec (trim_right s)) as (l & El & Hl & Ns).
  exists l, r. split; [by rewrite Er, El, <- app_assoc|]. split; [done|]. split; [done|]. split; [done|].
  intros (x & c & Ex & Hc). apply Ne. rewrite El, Ex. exists (l ++ x), c. split; [by rewrite app_assoc|done].
Qed.
Lemma blanks_first (l l' x x' : list ascii) : Forall blank l -> Forall blank l' -> l ++ x = l' ++ x' ->
  ~ starts_in blank x -> ~ starts_in blank x' -> l = l' /\ x = x'.
Proof.
  intros Hl. revert l'. induction Hl as [|c l Hc Hl IH]; intros l' Hl' E N N'.
  - destruct Hl' as [|c' l' Hc' Hl']; [done|]. destruct N. cbn in E. exists (l' ++ x'), c'. done.
  - destruct Hl' as [|c' l' Hc' Hl'].
    + destruct N'. cbn in E. exists (l ++ x), c. done.
    + injection E as -> E. destruct (IH l' Hl' E N N') as [-> ->]. done.
Qed.
Lemma trim_unique l l' r r' (x x' : list ascii) : l ++ x ++ r = l' ++ x' ++ r' -> x <> [] -> x' <> [] ->
  Forall blank l -> Forall blank l' -> Forall blank r -> Forall blank r' ->
  ~ starts_in blank x -> ~ starts_in blank x' -> ~ ends_in blank x -> ~ ends_in blank x' -> x = x'.
Proof.
  intros E Nx Nx' Hl Hl' Hr Hr' S S' T T'.
  destruct (blanks_first l l' (x ++ r) (x' ++ r')) as [-> E2]; [done|done|done| | |].
  - intros (y & c & Ey & Hc). destruct x as [|c' x]; [done|]. injection Ey as -> _. apply S. by exists x, c.
  - intros (y & c & Ey & Hc). destruct x' as [|c' x']; [done|]. injection Ey as -> _. apply S'. by exists x', c.
  - clear E. apply (f_equal reverse) in E2. rewrite !reverse_app in E2.
    destruct (blanks_first (reverse r) (reverse r') (reverse x) (reverse x')) as [_ E3];
      [by apply Forall_reverse|by apply Forall_reverse|done| | |].
    + intros (y & c & Ey & Hc). apply T. apply (f_equal reverse) in Ey.
      rewrite reverse_involutive, reverse_cons in Ey. by exists (reverse y), c.
    + intros (y & c & Ey & Hc). apply T'. apply (f_equal reverse) in Ey.
      rewrite reverse_involutive, reverse_cons in Ey. by exists (reverse y), c.
    + apply (f_equal reverse) in E3. by rewrite !reverse_involutive in E3.
Qed.

(** The pieces between separators *)
Definition piece (s w : list ascii) : Prop :=
  exists a b, s = a ++ w ++ b /\ Forall (fun c => ~ separator c) w /\
    (a = [] \/ ends_in separator a) /\ (b = [] \/ starts_in separator b).
Lemma split_spec s : forall acc, Forall (fun c => ~ separator c) (chars acc) ->
  forall w, w ∈ split acc s <-> piece (chars acc ++ chars s) (chars w).
Proof.
  induction s as [|c s IH]; intros acc Ha w; cbn [split].
  - rewrite elem_of_list_singleton. cbn. rewrite app_nil_r. split.
    + intros ->. exists [], []. rewrite app_nil_r. by auto.
    + intros (a & b & E & Hw & A & B). apply chars_inj.
      assert (Hall : Forall (fun c => ~ separator c) (a ++ chars w ++ b)) by (by rewrite <- E).
      apply Forall_app in Hall as [Fa Hall]. apply Forall_app in Hall as [_ Fb].
      destruct A as [->|(a' & c & -> & Hc)].
      2:{ apply Forall_app in Fa as [_ Fa]. by inversion Fa. }
      destruct B as [->|(b' & c & -> & Hc)]; [|by inversion Fb].
      by rewrite app_nil_r in E.
  - destruct (is_delimiter c) eqn:Ec.
    + apply is_delimiter_spec in Ec. rewrite elem_of_cons, (IH "") by constructor. cbn. split.
      * intros [->|(a & b & E & Hw & A & B)].
        -- exists [], (c :: chars s). split; [done|]. split; [done|]. split; [by left|]. right. by exists (chars s), c.
        -- exists ((chars acc ++ [c]) ++ a), b. split; [by rewrite E, <- !app_assoc|]. split; [done|]. split; [|done].
           right. destruct A as [->|(a' & c' & -> & Hc')].
           ++ rewrite app_nil_r. by exists (chars acc), c.
           ++ exists ((chars acc ++ [c]) ++ a'), c'. by rewrite app_assoc.
      * intros (a & b & E & Hw & A & B).
        destruct (decide (length a <= length (chars acc))) as [Hl|Hl].
        -- (* the piece starts inside acc, so at its start *)
           assert (a = []) as ->.
           { destruct A as [->|(a' & c' & -> & Hc')]; [done|]. exfalso.
             assert (Hp : (a' ++ [c']) ++ drop (length (a' ++ [c'])) (chars acc) = chars acc).
             { assert (take (length (a' ++ [c'])) (chars acc ++ c :: chars s) = a' ++ [c']) as Ht
                 by (rewrite E; by rewrite take_app).
               rewrite take_app_le in Ht by done. rewrite <- Ht at 1. apply take_drop. }
             rewrite <- Hp in Ha. apply Forall_app in Ha as [Ha _]. apply Forall_app in Ha as [_ Ha]. by inversion Ha. }
           left. cbn in E. apply chars_inj.
           destruct (decide (length (chars w) <= length (chars acc))) as [Hw'|Hw'].
           ++ assert (take (length (chars w)) (chars acc) = chars w) as Ht.
              { rewrite <- (take_app_le (chars acc) (c :: chars s)) by done. by rewrite E, take_app. }
              destruct B as [->|(b' & c' & -> & Hc')].
              ** rewrite app_nil_r in E. apply (f_equal length) in E. rewrite app_length in E. cbn in E. lia.
              ** destruct (decide (length (chars w) = length (chars acc))) as [El|Hne].
                 { rewrite <- Ht, El. by rewrite take_ge. }
                 assert (Hx : chars acc !! length (chars w) = Some c').
                 { assert ((chars acc ++ c :: chars s) !! length (chars w) = Some c') as Hx
                     by (rewrite E, lookup_app_r, Nat.sub_diag by done; done).
                   rewrite lookup_app_l in Hx by lia. done. }
                 exfalso. eapply Forall_lookup_1 in Hx; [|exact Ha]. done.
           ++ exfalso. assert (Hx : chars w !! length (chars acc) = Some c).
              { assert ((chars w ++ b) !! length (chars acc) = Some c) as Hx
                  by (rewrite <- E, lookup_app_r, Nat.sub_diag by done; done).
                rewrite lookup_app_l in Hx by lia. done. }
              eapply Forall_lookup_1 in Hx; [|exact Hw]. done.
        -- right. assert (exists a', a = (chars acc ++ [c]) ++ a') as [a' ->].
           { exists (drop (S (length (chars acc))) a).
             rewrite <- (take_drop (S (length (chars acc))) a) at 1. f_equal.
             rewrite <- (take_app_le a (chars w ++ b)) by lia. rewrite <- E.
             replace (chars acc ++ c :: chars s) with ((chars acc ++ [c]) ++ chars s) by (by rewrite <- app_assoc).
             rewrite take_app_alt; [done|]. rewrite app_length. cbn. lia. }
           replace (chars acc ++ c :: chars s) with ((chars acc ++ [c]) ++ chars s) in E by (by rewrite <- app_assoc).
           rewrite <- (app_assoc (chars acc ++ [c])) in E. apply app_inv_head in E.
           exists a', b. split; [done|]. split; [done|]. split; [|done].
           destruct a' as [|c1 a1 _] using rev_ind; [by left|]. right. exists a1, c1. split; [done|].
           destruct A as [A|(a2 & c2 & A & Hc2)]; [by destruct (chars acc)|].
           rewrite app_assoc in A. apply app_inj_2 in A as [_ [= ->]]; done.
    + assert (~ separator c) as Hc by (rewrite <- is_delimiter_spec; congruence).
      change (String.append acc (String c "")) with (acc +:+ String c "").
      rewrite IH; rewrite chars_app; cbn [chars].
      * by rewrite <- app_assoc.
      * apply Forall_app. split; [done|]. by constructor.
Qed.

Lemma tokenize_spec def x : x ∈ tokenize def <-> named def x.
Proof.
  unfold tokenize. rewrite Find.Proofs.elem_inss, elem_of_list_filter. split.
  - intros [[Hne Hx]|Hx]; [|by apply elem_of_nil in Hx].
    apply elem_of_list_fmap in Hx as (w & -> & Hw). apply split_spec in Hw; [|constructor]. cbn in Hw.
    destruct Hw as (a & b & E & Hw & A & B). destruct (trim_both w) as (l & r & Ew & Hl & Hr & Hs & Ht).
    set (x := trim_left (trim_right w)) in *. exists a, l, r, b. rewrite <- Ew.
    split; [done|]. split; [done|]. split; [done|]. split; [done|]. split; [done|]. split; [done|].
    split; [|done]. intros Hx. rewrite Hx in Hne. done.
  - intros (a & l & r & b & E & Hw & A & B & Hl & Hr & Hne & Hs & Ht). left. split.
    + unfold not_empty. destruct (String.eqb_spec x ""); done.
    + set (w := string_of_list_ascii (l ++ chars x ++ r)).
      assert (Ew : chars w = l ++ chars x ++ r) by apply chars_of.
      apply elem_of_list_fmap. exists w. split.
      * destruct (trim_both w) as (l' & r' & Ew' & Hl' & Hr' & Hs' & Ht'). rewrite Ew in Ew'.
        assert (Hx : chars x <> []) by (by rewrite chars_nil).
        destruct (decide (chars (trim_left (trim_right w)) = [])) as [E0|E0].
        { exfalso. rewrite E0 in Ew'. assert (Hb : Forall blank (l ++ chars x ++ r)).
          { rewrite Ew'. apply Forall_app. split; [done|]. done. }
          apply Forall_app in Hb as [_ Hb]. apply Forall_app in Hb as [Hb _].
          destruct (chars x) as [|c y] eqn:Ex; [done|]. apply Hs. exists y, c. split; [done|]. by inversion Hb. }
        apply chars_inj. eapply trim_unique; [exact Ew'|..]; done.
      * apply split_spec; [constructor|]. cbn. exists a, b. rewrite Ew. done.
Qed.

(** ** The options *)

Lemma process_spec tf def :
  process tf def = (if decide (lowered def = "false") then No
                    else if decide (lowered def = "true") then Yes else if tf then Unknown else Some_of).
Proof.
  unfold process. destruct (String.eqb_spec (lowered def) "false"), (String.eqb_spec (lowered def) "true");
    repeat case_decide; done.
Qed.
Lemma item_set_spec def all x : x ∈ item_set def all <-> asked def all x.
Proof.
  unfold item_set, asked, listing, says. rewrite process_spec. case_decide as H1; [|case_decide as H2].
  - rewrite H1. split; [by intros ?%elem_of_nil|]. intros [[? _]|(_ & ? & _)]; done.
  - rewrite Find.Proofs.elem_inss. split.
    + intros [H|H%elem_of_nil]; [by left|done].
    + intros [[_ H]|(H & _)]; [by left|done].
  - rewrite tokenize_spec. split; [by right|]. intros [[H _]|(_ & _ & H)]; done.
Qed.
Lemma item_map_step l : forall m, ordered m ->
  ordered (fold_left (fun m p => nd_set p.1 p.2 m) l m) /\
  forall x y, (x, y) ∈ fold_left (fun m p => nd_set p.1 p.2 m) l m <->
    last_with l x y \/ (x ∉ l.*1 /\ (x, y) ∈ m).
Proof.
  induction l as [|[a b] l IH]; intros m Hm; cbn.
  - split; [done|]. intros x y. split.
    + right. split; [apply not_elem_of_nil|done].
    + intros [(u & v & E & _)|[_ H]]; [by destruct u|done].
  - destruct (IH (nd_set a b m)) as [I1 I2]; [by apply nd_set_ordered|]. split; [done|].
    intros x y. rewrite I2, nd_set_elem by done. rewrite not_elem_of_cons. split.
    + intros [(u & v & -> & Hv)|[Hn [[-> ->]|[Hx Hin]]]].
      * left. by exists ((a, b) :: u), v.
      * left. by exists [], l.
      * right. done.
    + intros [(u & v & E & Hv)|[[Hx Hn] Hin]]; [|auto].
      destruct u as [|[a' b'] u]; injection E as -> -> E.
      * subst. right. auto.
      * left. by exists u, v.
Qed.
Lemma item_map_ordered l : ordered (item_map l).
Proof. apply item_map_step, ordered_nil. Qed.
Lemma item_map_spec l x y : (x, y) ∈ item_map l <-> last_with l x y.
Proof.
  unfold item_map. destruct (item_map_step l [] (ordered_nil)) as [_ H]. rewrite H. split; [|by left].
  intros [?|[_ ?%elem_of_nil]]; done.
Qed.
Lemma last_with_ex l x : x ∈ l.*1 -> exists y, last_with l x y.
Proof.
  induction l as [|[a b] l IH]; cbn; [by intros ?%elem_of_nil|]. intros H.
  destruct (decide (x ∈ l.*1)) as [Hi|Hi].
  - destruct (IH Hi) as (y & u & v & -> & Hv). exists y, ((a, b) :: u), v. done.
  - apply elem_of_cons in H as [->|H]; [|done]. exists b, [], l. done.
Qed.
Lemma last_with_in l x y : last_with l x y -> (x, y) ∈ l.
Proof. intros (u & v & -> & _). apply elem_of_app. right. left. Qed.
Lemma last_with_fst l x y : last_with l x y -> x ∈ l.*1.
Proof. intros H%last_with_in. apply elem_of_list_fmap. by exists (x, y). Qed.
Lemma mapped_spec l x y : x ∈ l.*1 -> mapped (item_map l) x = y <-> last_with l x y.
Proof.
  intros Hx. destruct (last_with_ex l x Hx) as (z & Hz). unfold mapped.
  rewrite (proj2 (nd_find_some _ _ z (item_map_ordered l))) by (by apply item_map_spec). cbn.
  split; [by intros <-|]. intros Hy. apply item_map_spec in Hz, Hy.
  by eapply ordered_fun; [apply item_map_ordered|..].
Qed.
Lemma item_map_nil l : item_map l = [] -> l = [].
Proof.
  intros H. destruct l as [|[a b] l]; [done|]. destruct (last_with_ex ((a, b) :: l) a) as (y & Hy); [left|].
  apply item_map_spec in Hy. rewrite H in Hy. by apply elem_of_nil in Hy.
Qed.

Lemma named_cases def l (f : string -> string) (g : string -> string -> string) (P : string -> punch) n p :
  process false def <> No ->
  let m := match process false def with Yes => item_map l | _ => [] end in
  (n, p) ∈ map (fun x => (match m with [] => f x | _ => g (mapped m x) x end, P x)) (item_set def (map fst l)) <->
  (exists x y, says "true" def /\ last_with l x y /\ n = g y x /\ p = P x) \/
  (exists x, listing def x /\ n = f x /\ p = P x).
Proof.
  intros Hno m. change (map ?h ?l) with (h <$> l). rewrite elem_of_list_fmap. unfold m, says. clear m.
  assert (Hp := process_spec false def).
  destruct (decide (lowered def = "false")) as [H1|H1]; [done|].
  destruct (decide (lowered def = "true")) as [H2|H2]; rewrite Hp.
  - split.
    + intros (x & [= -> ->] & Hx). apply item_set_spec in Hx as [[_ Hx]|(Hx & _)]; [|done].
      left. destruct (item_map l) as [|q m] eqn:E.
      { apply item_map_nil in E. subst. by apply elem_of_nil in Hx. }
      rewrite <- E. destruct (last_with_ex l x Hx) as (y & Hy). exists x, y. split; [done|]. split; [done|].
      by rewrite (proj2 (mapped_spec l x y Hx) Hy).
    + intros [(x & y & _ & Hy & -> & ->)|(x & (Hx & _) & _)]; [|done]. exists x.
      pose proof (last_with_fst l x y Hy) as Hx. split.
      * f_equal. destruct (item_map l) as [|q m] eqn:E.
        { apply item_map_nil in E. subst. by apply elem_of_nil in Hx. }
        rewrite <- E. by rewrite (proj2 (mapped_spec l x y Hx) Hy).
      * apply item_set_spec. left. done.
  - split.
    + intros (x & [= -> ->] & Hx). apply item_set_spec in Hx as [[? _]|Hx]; [done|]. right. eauto.
    + intros [(x & y & ? & _)|(x & Hx & -> & ->)]; [done|]. exists x. split; [done|].
      apply item_set_spec. by right.
Qed.
Lemma sorbed_spec def pre l n p : (n, p) ∈ sorbed def pre l <->
  (exists x, ~ says "false" def /\ x ∈ l.*2 /\ n = pre +:+ "total_molality_" +:+ x /\ p = P_tot x) \/
  (exists x y, says "true" def /\ last_with l x y /\ n = pre +:+ y +:+ "_species_log_molality_" +:+ x /\ p = P_lm x) \/
  (exists x, listing def x /\ n = pre +:+ "species_log_molality_" +:+ x /\ p = P_lm x).
Proof.
  destruct (decide (lowered def = "false")) as [H1|H1].
  { unfold sorbed. rewrite process_spec, decide_True by done. split; [by intros ?%elem_of_nil|].
    unfold listing, says. rewrite H1. intros [(x & ? & _)|[(x & y & ? & _)|(x & (_ & ? & _) & _)]]; done. }
  assert (Hno : process false def <> No).
  { rewrite process_spec, decide_False by done. by case_decide. }
  rewrite <- (named_cases def l (fun x => pre +:+ "species_log_molality_" +:+ x)
                (fun y x => pre +:+ y +:+ "_species_log_molality_" +:+ x) P_lm n p Hno).
  assert (E : sorbed def pre l = map (fun x => (pre +:+ "total_molality_" +:+ x, P_tot x)) (inss (map snd l) []) ++
    map (fun x => (match (match process false def with Yes => item_map l | _ => [] end) with
                     | [] => pre +:+ "species_log_molality_" +:+ x
                     | _ => pre +:+ mapped (match process false def with Yes => item_map l | _ => [] end) x +:+ "_species_log_molality_" +:+ x
                     end, P_lm x)) (item_set def (map fst l))).
  { unfold sorbed. rewrite process_spec. rewrite (decide_False (P := lowered def = "false")) by done. by case_decide. }
  rewrite E, elem_of_app. apply or_iff_compat_r.
  change (map (fun x => (pre +:+ "total_molality_" +:+ x, P_tot x)) (inss (map snd l) []))
    with ((fun x => (pre +:+ "total_molality_" +:+ x, P_tot x)) <$> inss (l.*2) []). rewrite elem_of_list_fmap.
  split.
  - intros (x & [= -> ->] & [Hx|Hx%elem_of_nil]%Find.Proofs.elem_inss); [|done]. exists x. done.
  - intros (x & _ & Hx & -> & ->). exists x. split; [done|]. apply Find.Proofs.elem_inss. by left.
Qed.

Lemma elem_map {A B} (f : A -> B) (l : list A) y : y ∈ map f l <-> exists x, y = f x /\ x ∈ l.
Proof. change (map f l) with (f <$> l). apply elem_of_list_fmap. Qed.
Lemma elem_flat_map {A B} (f : A -> list B) (l : list A) y : y ∈ flat_map f l <-> exists x, x ∈ l /\ y ∈ f x.
Proof. rewrite elem_of_list_In, in_flat_map. setoid_rewrite elem_of_list_In. done. Qed.

(** The variables made are the ones wanted. *)
Lemma items_wanted d l n p : (n, p) ∈ items d l <-> wanted d l n p.
Proof.
  assert (Hone : forall (f : string -> string) (P : string -> punch) o all,
    (n, p) ∈ map (fun x => (f x, P x)) (item_set (d o) all) <-> exists x, asked (d o) all x /\ n = f x /\ p = P x).
  { intros f P o all. rewrite elem_map. setoid_rewrite item_set_spec. split.
    - intros (x & [= -> ->] & H). eauto.
    - intros (x & H & -> & ->). eauto. }
  assert (Htwo : forall (f g : string -> string) (P Q : string -> punch) o all,
    (n, p) ∈ flat_map (fun x => [(f x, P x); (g x, Q x)]) (item_set (d o) all) <->
    exists x, asked (d o) all x /\ (n = f x /\ p = P x \/ n = g x /\ p = Q x)).
  { intros f g P Q o all. rewrite elem_flat_map. setoid_rewrite item_set_spec. split.
    - intros (x & H & Hx). exists x. split; [done|].
      apply elem_of_cons in Hx as [[= -> ->]|Hx]; [by left|]. apply elem_of_list_singleton in Hx as [= -> ->]. by right.
    - intros (x & H & [[-> ->]|[-> ->]]); exists x; (split; [done|]); [left|right; left]. }
  assert (Hgas : (n, p) ∈ vars_of d l Gases <-> exists x, asked (d Gases) (l_gases l) x /\
    (n = "gas_phase_volume" /\ p = P_gas_volume \/ n = "gas_phase_moles_" +:+ x /\ p = P_gas x \/
     n = "gas_phase_pressure_" +:+ x /\ p = P_gas_p x \/ n = "gas_phase_phi_" +:+ x /\ p = P_gas_phi x)).
  { cbn [vars_of]. setoid_rewrite <- item_set_spec. destruct (item_set (d Gases) (l_gases l)) as [|x0 xs] eqn:E.
    - split; [by intros ?%elem_of_nil|]. by intros (x & ?%elem_of_nil & _).
    - rewrite <- E, elem_of_cons, elem_flat_map. split.
      + intros [[= -> ->]|(x & Hx & Hin)].
        * exists x0. split; [rewrite E; left|]. by left.
        * exists x. split; [done|]. rewrite !elem_of_cons, elem_of_nil in Hin. naive_solver.
      + intros (x & Hx & [[-> ->]|H]); [by left|]. right. exists x. split; [done|].
        rewrite !elem_of_cons. naive_solver. }
  assert (Hss : (n, p) ∈ vars_of d l SolidSolutions <->
    (exists x y, says "true" (d SolidSolutions) /\ last_with (l_ss l) x y /\
       n = "solid_solution_" +:+ y +:+ "_moles_" +:+ x /\ p = P_s_s x) \/
    (exists x, listing (d SolidSolutions) x /\ n = "solid_solution_moles_" +:+ x /\ p = P_s_s x)).
  { destruct (decide (lowered (d SolidSolutions) = "false")) as [H1|H1].
    - cbn [vars_of]. unfold item_set. rewrite process_spec, decide_True by done. split; [by intros ?%elem_of_nil|].
      unfold listing, says. rewrite H1. intros [(x & y & ? & _)|(x & (_ & ? & _) & _)]; done.
    - assert (Hno : process false (d SolidSolutions) <> No).
      { rewrite process_spec, decide_False by done. by case_decide. }
      apply (named_cases (d SolidSolutions) (l_ss l) (fun x => "solid_solution_moles_" +:+ x)
               (fun y x => "solid_solution_" +:+ y +:+ "_moles_" +:+ x) P_s_s n p Hno). }
  assert (Hprop : (n, p) ∈ vars_of d l SolutionProperties <-> says "true" (d SolutionProperties) /\ (n, p) ∈ properties).
  { cbn [vars_of]. rewrite process_spec. unfold says. case_decide as H1; [|case_decide as H2].
    - rewrite H1. split; [by intros ?%elem_of_nil|]. by intros [? _].
    - tauto.
    - split; [by intros ?%elem_of_nil|]. by intros [? _]. }
  unfold items. rewrite elem_flat_map. split.
  - intros (o & Ho & H). destruct o.
    + by apply elem_of_nil in H.
    + apply Hprop in H as [Hs H]. unfold properties in H.
      repeat (apply elem_of_cons in H as [[= -> ->]|H]; [by constructor|]). by apply elem_of_nil in H.
    + apply Hone in H as (x & Hx & -> & ->). by constructor.
    + apply sorbed_spec in H as [(x & H1 & H2 & -> & ->)|[(x & y & H1 & H2 & -> & ->)|(x & H1 & -> & ->)]]; by constructor.
    + apply sorbed_spec in H as [(x & H1 & H2 & -> & ->)|[(x & y & H1 & H2 & -> & ->)|(x & H1 & -> & ->)]]; by constructor.
    + apply (Htwo _ _ P_equi P_equi_delta) in H as (x & Hx & [[-> ->]|[-> ->]]); by constructor.
    + apply Hgas in H as (x & Hx & [[-> ->]|[[-> ->]|[[-> ->]|[-> ->]]]]); by econstructor.
    + apply (Htwo _ _ P_kin P_kin_delta) in H as (x & Hx & [[-> ->]|[-> ->]]); by constructor.
    + apply Hss in H as [(x & y & H1 & H2 & -> & ->)|(x & H1 & -> & ->)]; by constructor.
    + apply Hone in H as (x & Hx & -> & ->). by constructor.
    + apply Hone in H as (x & Hx & -> & ->). by constructor.
    + apply Hone in H as (x & Hx & -> & ->). by constructor.
    + apply Hone in H as (x & Hx & -> & ->). by constructor.
  - assert (Hopt : forall o, o <> AddOutputVars -> o ∈ opts).
    { intros o Ho. destruct o; [done|..]; unfold opts; repeat (first [apply elem_of_list_here | apply elem_of_list_further]). }
    intros H.
    assert (Hp : (exists q, (n, p) ∈ properties /\ q = says "true" (d SolutionProperties) /\ q) ->
              exists o, o ∈ opts /\ (n, p) ∈ vars_of d l o).
    { intros (q & Hin & -> & Hq). exists SolutionProperties. split; [by apply Hopt|]. apply Hprop. done. }
    destruct H.
    1-8: apply Hp; eexists; split; [|done]; unfold properties; repeat (first [apply elem_of_list_here | apply elem_of_list_further]).
    + exists SolutionTotalMolalities. split; [by apply Hopt|]. apply Hone. eauto.
    + exists ExchangeMolalities. split; [by apply Hopt|]. apply sorbed_spec. left. eauto 6.
    + exists ExchangeMolalities. split; [by apply Hopt|]. apply sorbed_spec. right. left. eauto 8.
    + exists ExchangeMolalities. split; [by apply Hopt|]. apply sorbed_spec. right. right. eauto 8.
    + exists SurfaceMolalities. split; [by apply Hopt|]. apply sorbed_spec. left. eauto 6.
    + exists SurfaceMolalities. split; [by apply Hopt|]. apply sorbed_spec. right. left. eauto 8.
    + exists SurfaceMolalities. split; [by apply Hopt|]. apply sorbed_spec. right. right. eauto 8.
    + exists EquilibriumPhases. split; [by apply Hopt|]. apply (Htwo _ _ P_equi P_equi_delta). eauto 6.
    + exists EquilibriumPhases. split; [by apply Hopt|]. apply (Htwo _ _ P_equi P_equi_delta). eauto 6.
    + exists Gases. split; [by apply Hopt|]. apply Hgas. eauto 8.
    + exists Gases. split; [by apply Hopt|]. apply Hgas. eauto 8.
    + exists Gases. split; [by apply Hopt|]. apply Hgas. eauto 8.
    + exists Gases. split; [by apply Hopt|]. apply Hgas. eauto 8.
    + exists KineticReactants. split; [by apply Hopt|]. apply (Htwo _ _ P_kin P_kin_delta). eauto 6.
    + exists KineticReactants. split; [by apply Hopt|]. apply (Htwo _ _ P_kin P_kin_delta). eauto 6.
    + exists SolidSolutions. split; [by apply Hopt|]. apply Hss. left. eauto 8.
    + exists SolidSolutions. split; [by apply Hopt|]. apply Hss. right. eauto 8.
    + exists CalculateValues. split; [by apply Hopt|]. apply Hone. eauto.
    + exists SolutionActivities. split; [by apply Hopt|]. apply Hone. eauto.
    + exists SolutionMolalities. split; [by apply Hopt|]. apply Hone. eauto.
    + exists SaturationIndices. split; [by apply Hopt|]. apply Hone. eauto.
Qed.
