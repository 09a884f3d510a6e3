(** First lines, ranges and COPY: lemmas. *)
From Coq Require Import String Ascii ZArith Lia.
From stdpp Require Import prelude strings pretty gmap.
From Verif.Base Require Import Result.
From Verif.Raw Require Import Model.
From Verif.Delete Require Import Model Spec Proofs.
From Verif.Copy Require Import Model Spec.
Local Open Scope string_scope.

(** * First lines *)

Lemma skip_blanks g s : blanks g -> skip (g +:+ s) = skip s.
Proof.
  induction g as [|a g IH]; [done|]. intros [H1 H2]. change (String a g +:+ s) with (String a (g +:+ s)).
  cbn [skip]. rewrite H1. by apply IH.
Qed.
Lemma skip_tidy d : tidy d -> skip d = d.
Proof. destruct d as [|a d]; [done|]. cbn [tidy skip]. by intros ->. Qed.
(** what ends a word *)
Definition ends (s : string) : Prop := match s with EmptyString => True | String a _ => blank a = true end.
Lemma word_solid w s : solid w -> ends s -> word (w +:+ s) = w /\ after_word (w +:+ s) = s.
Proof.
  intros Hw Hs. induction w as [|a w IH].
  - change ("" +:+ s) with s. destruct s as [|b s]; [done|]. cbn [ends word after_word] in *. by rewrite Hs.
  - change (String a w +:+ s) with (String a (w +:+ s)). cbn [word after_word solid] in *. destruct Hw as [-> Hw].
    destruct (IH Hw) as [-> ->]. done.
Qed.
Lemma token_solid g w s : blanks g -> solid w -> w <> "" -> ends s -> copy_token (g +:+ w +:+ s) = (w, s).
Proof.
  intros Hg Hw Hn Hs. unfold copy_token. rewrite skip_blanks by done.
  assert (skip (w +:+ s) = w +:+ s) as ->.
  { destruct w as [|a w]; [done|]. change (String a w +:+ s) with (String a (w +:+ s)). cbn [skip]. by rewrite (proj1 Hw). }
  by destruct (word_solid w s Hw Hs) as [-> ->].
Qed.
Lemma ends_gap g s : blanks g -> g <> "" -> ends (g +:+ s).
Proof. destruct g as [|a g]; [done|]. by intros [H _]. Qed.
Lemma ends_gap_or g d : blanks g -> (d = "" \/ g <> "") -> ends (g +:+ d).
Proof. intros Hg [->|H]; [|by apply ends_gap]. destruct g as [|a g]; [done|]. by destruct Hg. Qed.

Lemma solid_digits u : all_digits u -> solid u.
Proof. induction u as [|a u IH]; [done|]. intros [H1 H2]. split; [by apply digit_cases|by apply IH]. Qed.
Lemma solid_app u v : solid u -> solid v -> solid (u +:+ v).
Proof. induction u as [|a u IH]; [done|]. intros [H1 H2] Hv. split; [done|by apply IH]. Qed.
Lemma solid_pretty (z : Z) : solid (pretty z).
Proof.
  destruct (pretty_Z_cases z) as [x [(_ & _ & H3)|(_ & _ & H3)]]; rewrite H3; destruct (pretty_N_digits x) as [Ha _];
    [by apply solid_digits|]. split; [done|by apply solid_digits].
Qed.
Lemma solid_span r : solid (span_text r).
Proof. destruct r as [a|a b]; cbn [span_text]; [apply solid_pretty|]. repeat apply solid_app; try apply solid_pretty. done. Qed.
Lemma no_digit_ends s : ends s -> no_digit s.
Proof.
  destruct s as [|a s]; [done|]. cbn [ends no_digit]. intros H. destruct (digit a) eqn:E'; [|done].
  assert (digit a <> None) as Hd by (by rewrite E'). apply digit_cases in Hd as (_ & _ & _ & Hd). congruence.
Qed.

Lemma get_numeral s : get_int s =
  (match (numeral s).1 with Some z => if in_int z then Some z else None | None => None end, (numeral s).2).
Proof.
  unfold get_int, numeral.
  destruct (match skip s with String a s' => if Ascii.eqb a "-" then (true, s')
              else if Ascii.eqb a "+" then (false, s') else (false, String a s') | "" => (false, "") end) as [neg s1].
  destruct (digits 0 false s1) as [o s2]. by destruct o.
Qed.
Lemma numeral_pretty (z : Z) s : is_int z -> no_digit s -> numeral (pretty z +:+ s) = (Some z, s).
Proof.
  intros Hz Hs. pose proof (get_int_pretty z s Hz Hs) as H. rewrite get_numeral in H.
  destruct (numeral (pretty z +:+ s)) as [o r]. cbn [fst snd] in H. destruct o as [v|]; [|done].
  destruct (in_int v); [|done]. congruence.
Qed.
Lemma int_in z : is_int z -> in_int z = true.
Proof. intros H. unfold in_int, int_min, int_max. unfold is_int in H. apply andb_true_iff. split; apply Z.leb_le; lia. Qed.
Lemma pretty_front (z : Z) s : exists a u, pretty z +:+ s = String a u /\ blank a = false /\
  (bool_decide (is_Some (digit a)) || Ascii.eqb a "-") = true.
Proof.
  destruct (pretty_Z_cases z) as [x [(_ & _ & H3)|(_ & _ & H3)]]; rewrite H3.
  - destruct (pretty_N_digits x) as [Ha Hn]. destruct (pretty x) as [|a u]; [done|]. exists a, (u +:+ s).
    split; [done|]. destruct Ha as [Ha _]. split; [by apply digit_cases|].
    apply orb_true_iff. left. apply bool_decide_true. by apply not_eq_None_Some.
  - exists "-"%char, (pretty x +:+ s). done.
Qed.
Lemma extract_pretty (z : Z) s : is_int z -> no_digit s -> extract (pretty z +:+ s) = Got z s.
Proof.
  intros Hz Hs. unfold extract. rewrite numeral_pretty, int_in by done.
  destruct (pretty_front z s) as (a & u & -> & Hb & _). cbn [skip]. by rewrite Hb.
Qed.
Lemma scan_pretty (z : Z) s : is_int z -> no_digit s -> scan (pretty z +:+ s) = Ret (Some z, s).
Proof. intros Hz Hs. unfold scan. by rewrite numeral_pretty, int_in. Qed.

(** the words of numbers *)
Lemma blank_dash_digits u s : all_digits u -> blank_dash (u +:+ s) = u +:+ blank_dash s.
Proof.
  induction u as [|a u IH]; [done|]. intros [H1 H2]. change (String a u +:+ s) with (String a (u +:+ s)).
  cbn [blank_dash]. destruct (digit_cases a H1) as (? & _). destruct (Ascii.eqb_spec a "-"); [done|].
  rewrite IH by done. done.
Qed.
Lemma cut_pretty (z : Z) s : cut (pretty z +:+ s) = pretty z +:+ blank_dash s.
Proof.
  destruct (pretty_Z_cases z) as [x [(_ & _ & H3)|(_ & _ & H3)]]; rewrite H3; destruct (pretty_N_digits x) as [Ha Hn].
  - rewrite <- blank_dash_digits by done. destruct (pretty x) as [|a u]; [done|].
    change (String a u +:+ s) with (String a (u +:+ s)). destruct Ha as [Ha _].
    destruct (digit_cases a Ha) as (? & _). cbn [cut]. by destruct (Ascii.eqb_spec a "-").
  - change (String "-" (pretty x) +:+ s) with (String "-" (pretty x +:+ s)). cbn [cut].
    change (Ascii.eqb "-" "-") with true. cbn match. by rewrite blank_dash_digits.
Qed.
Definition cut_tail (w : string) : string := match w with String a t => String a (blank_dash t) | EmptyString => "" end.
Lemma cut_tail_pretty (z : Z) s : cut_tail (pretty z +:+ s) = pretty z +:+ blank_dash s.
Proof.
  destruct (pretty_Z_cases z) as [x [(_ & _ & H3)|(_ & _ & H3)]]; rewrite H3; destruct (pretty_N_digits x) as [Ha Hn].
  - destruct (pretty x) as [|a u]; [done|]. change (String a u +:+ s) with (String a (u +:+ s)). cbn [cut_tail].
    rewrite blank_dash_digits by apply Ha. done.
  - change (String "-" (pretty x) +:+ s) with (String "-" (pretty x +:+ s)). cbn [cut_tail]. by rewrite blank_dash_digits.
Qed.
Definition numbers_of (r : span) : list Z := match r with One a => [a] | Span a b => [a; b] end.
Lemma scan2_one (a : Z) : is_int a -> scan2 (pretty a +:+ "") = Ret [a].
Proof. intros H. unfold scan2. rewrite scan_pretty by done. reflexivity. Qed.
Lemma scan2_two (a b : Z) : is_int a -> is_int b -> scan2 (pretty a +:+ String " " (pretty b)) = Ret [a; b].
Proof.
  intros Ha Hb. unfold scan2. rewrite scan_pretty by done. cbn [obind fst snd].
  change (scan (String " " (pretty b))) with
    (match numeral (pretty b) with (Some z, r) => if in_int z then Ret (Some z, r) else UB | (None, _) => Ret (None, String " " (pretty b)) end).
  rewrite <- (app_nil_str (pretty b)) at 1. rewrite numeral_pretty, int_in by done. reflexivity.
Qed.
Lemma scan2_cut r : ints r -> scan2 (cut (span_text r)) = Ret (numbers_of r).
Proof.
  destruct r as [a|a b]; cbn [ints span_text numbers_of].
  - intros H. rewrite <- (app_nil_str (pretty a)). rewrite cut_pretty. by apply scan2_one.
  - intros [H1 H2]. rewrite cut_pretty. by apply scan2_two.
Qed.
Lemma scan2_cut_tail r : ints r -> scan2 (cut_tail (span_text r)) = Ret (numbers_of r).
Proof.
  destruct r as [a|a b]; cbn [ints span_text numbers_of].
  - intros H. rewrite <- (app_nil_str (pretty a)). rewrite cut_tail_pretty. by apply scan2_one.
  - intros [H1 H2]. rewrite cut_tail_pretty. by apply scan2_two.
Qed.
Lemma max_max a b : (if decide (b < a)%Z then a else b) = Z.max a b.
Proof. case_decide; lia. Qed.

Lemma parser_headed r d line : headed r d line -> ints r -> from_parser line = Heading (lowest r) (highest r) d.
Proof.
  intros (g0 & key & g1 & g2 & H0 & Hk & Hkn & H1 & H1n & H2 & H2n & Hd & ->) Hr.
  assert (ends (g2 +:+ d)) as He by (by apply ends_gap_or).
  assert (no_digit (g2 +:+ d)) as Hn by (by apply no_digit_ends).
  assert (skip (g2 +:+ d) = d) as Hs by (rewrite skip_blanks by done; by apply skip_tidy).
  unfold from_parser. rewrite token_solid by (try done; by apply ends_gap). cbn [snd]. rewrite skip_blanks by done.
  destruct r as [a|a b]; cbn [span_text lowest highest ints] in *.
  - destruct (pretty_front a (g2 +:+ d)) as (c & u & E' & Hb & Hc). rewrite E'. cbn [skip]. rewrite Hb. cbn zeta.
    rewrite Hc. rewrite <- E', extract_pretty by done. destruct (g2 +:+ d) as [|x y] eqn:Eg; [by rewrite <- Hs|].
    destruct (Ascii.eqb_spec x "-") as [->|]; [done|]. by f_equal.
  - destruct Hr as [Ha Hb]. rewrite !app_assoc3.
    destruct (pretty_front a ("-" +:+ pretty b +:+ g2 +:+ d)) as (c & u & E' & Hbl & Hc).
    change ("-" +:+ pretty b +:+ g2 +:+ d) with (String "-" (pretty b +:+ g2 +:+ d)) in *.
    rewrite E'. cbn [skip]. rewrite Hbl. cbn zeta. rewrite Hc. rewrite <- E', extract_pretty by done.
    change (Ascii.eqb "-" "-") with true. cbn match. rewrite extract_pretty by done. by rewrite Hs, max_max.
Qed.
Lemma string_headed r d line : headed r d line -> ints r -> from_string line = Ret (Heading (lowest r) (highest r) d).
Proof.
  intros (g0 & key & g1 & g2 & H0 & Hk & Hkn & H1 & H1n & H2 & H2n & Hd & ->) Hr.
  assert (skip (g2 +:+ d) = d) as Hs by (rewrite skip_blanks by done; by apply skip_tidy).
  unfold from_string. rewrite token_solid by (try done; by apply ends_gap). cbn [snd].
  rewrite token_solid; [|done|apply solid_span|apply span_text_ne|by apply ends_gap_or].
  rewrite numeric_span, scan2_cut by done. cbn [obind].
  destruct r as [a|a b]; cbn [numbers_of lowest highest]; rewrite Hs, max_max; [by rewrite Z.max_id|done].
Qed.
Lemma both_unnumbered d line : unnumbered d line ->
  from_parser line = Heading 1 1 d /\ from_string line = Ret (Heading 1 1 d).
Proof.
  intros (g0 & key & g1 & H0 & Hk & Hkn & H1 & H1n & Hd & ->).
  assert (skip d = d) as Hs by (destruct d as [|a d]; [done|]; cbn [skip wordy] in *; by destruct Hd as [-> _]).
  unfold from_parser, from_string. rewrite token_solid by (try done; by apply ends_gap_or). cbn [snd].
  rewrite skip_blanks by done. rewrite Hs. unfold copy_token. rewrite skip_blanks by done. rewrite Hs.
  assert (word d +:+ after_word d = d) as Hw.
  { clear. induction d as [|a d IH]; [done|]. cbn [word after_word]. destruct (blank a); [done|].
    change (String a (word d +:+ after_word d) = String a d). by rewrite IH. }
  rewrite Hw, Hs. destruct d as [|a d]; [done|]. cbn [wordy] in Hd. destruct Hd as (Hb & Hg & Hm & Hp).
  rewrite Hg. rewrite (bool_decide_false (is_Some None)) by (by intros [? ?]).
  destruct (Ascii.eqb_spec a "-") as [|Hm']; [done|]. split; [done|]. cbn [word]. rewrite Hb.
  cbn [numeric]. rewrite Hg. rewrite (bool_decide_false (is_Some None)) by (by intros [? ?]).
  destruct (Ascii.eqb_spec a "."); [done|]. destruct (Ascii.eqb_spec a "-"); done.
Qed.

(** * Ranges *)

Section Tables.
Context {A : Type}.
Implicit Types (m : gmap Z (numbered A)) (e : numbered A).
Lemma lookup_copy_on c : forall j e m n,
  copy_on c j e m !! n = if decide (j <= n < j + Z.of_nat c)%Z then Some (Num n n (body e)) else m !! n.
Proof.
  induction c as [|c IH]; intros j e m n; cbn [copy_on].
  - rewrite decide_False by lia. done.
  - rewrite IH. cbn [body renumber]. destruct (decide (n = j)) as [->|Hn].
    + rewrite decide_False by lia. rewrite decide_True by lia. by rewrite lookup_insert.
    + rewrite lookup_insert_ne by done. repeat case_decide; try done; lia.
Qed.
Lemma copies_found a b e m : m !! a = Some e -> (b < int_max)%Z ->
  exists m', rxn_copies a b m = Ret m' /\
    forall n, m' !! n = if decide (a < n <= b)%Z then Some (Num n n (body e)) else m !! n.
Proof.
  intros He Hb. unfold rxn_copies. case_decide as H.
  - exists m. split; [done|]. intros n. by rewrite decide_False by lia.
  - rewrite He. rewrite decide_False by lia. eexists. split; [done|]. intros n. rewrite lookup_copy_on.
    apply decide_ext. lia.
Qed.

(** * COPY *)

Lemma u64_nonneg z : is_int z -> (0 <= z)%Z -> u64 z = z.
Proof. unfold is_int. intros H1 H2. unfold u64. apply Z.mod_small. lia. Qed.
Lemma u64_neg z : is_int z -> (z < 0)%Z -> u64 z = (z + 2 ^ 64)%Z.
Proof. unfold is_int. intros H1 H2. unfold u64. rewrite <- (Z_mod_plus_full z 1). rewrite Z.mul_1_l. apply Z.mod_small. lia. Qed.
Lemma i32_u64 z : is_int z -> i32 (u64 z) = z.
Proof.
  unfold is_int. intros H. unfold i32. destruct (decide (0 <= z)%Z).
  - rewrite u64_nonneg by (unfold is_int; lia). rewrite Z.mod_small by lia. lia.
  - rewrite u64_neg by (unfold is_int; lia).
    replace (z + 2 ^ 64 + 2 ^ 31)%Z with (z + 2 ^ 31 + 2 ^ 32 * 2 ^ 32)%Z by lia.
    rewrite Z_mod_plus_full. rewrite Z.mod_small by lia. lia.
Qed.
Lemma u64_inj x y : is_int x -> is_int y -> u64 x = u64 y -> x = y.
Proof. intros Hx Hy H. rewrite <- (i32_u64 x), <- (i32_u64 y) by done. by rewrite H. Qed.

(** the loop over size_t is the loop over the ints of the range *)
Definition same_side (a b : Z) : Prop := ((0 <= a /\ 0 <= b) \/ (a < 0 /\ b < -1))%Z.
Lemma seq_u64 a b : is_int a -> is_int b -> same_side a b ->
  seqZ (u64 a) (u64 b - u64 a + 1) = map u64 (seqZ a (b - a + 1)) /\ u64 b <> (2 ^ 64 - 1)%Z.
Proof.
  intros Ha Hb Hs. assert (exists d, u64 a = (a + d)%Z /\ u64 b = (b + d)%Z /\ (forall i, (a <= i <= b)%Z -> u64 i = (i + d)%Z)) as (d & H1 & H2 & H3).
  { destruct Hs as [[? ?]|[? ?]].
    - exists 0%Z. rewrite !u64_nonneg by done. split_and!; [lia|lia|]. intros i Hi. rewrite u64_nonneg; unfold is_int in *; lia.
    - exists (2 ^ 64)%Z. rewrite !u64_neg by (try done; lia). split_and!; [lia|lia|]. intros i Hi. rewrite u64_neg; unfold is_int in *; lia. }
  split.
  - rewrite H1, H2. replace (b + d - (a + d) + 1)%Z with (b - a + 1)%Z by lia.
    apply list_eq. intros i. apply option_eq. intros x. rewrite list_lookup_fmap. rewrite lookup_seqZ. split.
    + intros [-> Hi]. rewrite lookup_seqZ_lt by lia. cbn. rewrite H3 by lia. f_equal. lia.
    + intros (y & Hy & ->)%fmap_Some. apply lookup_seqZ in Hy as [-> Hi]. rewrite H3 by lia. lia.
  - destruct Hs as [[? ?]|[? ?]].
    + rewrite u64_nonneg by done. unfold is_int in *. lia.
    + rewrite u64_neg by (try done; lia). unfold is_int in *. lia.
Qed.
Lemma lookup_copy_loop src l : is_int src -> Forall is_int l -> forall m n,
  foldl (fun m i => if decide (i = u64 src) then m else rxn_copy src (i32 i) m) m (map u64 l) !! n =
  match m !! src with
  | Some e => if decide (n ∈ l /\ n <> src) then Some (Num n n (body e)) else m !! n
  | None => m !! n
  end.
Proof.
  intros Hs Hl. induction Hl as [|x l Hx Hl IH]; intros m n; cbn [map foldl].
  - destruct (m !! src); [|done]. rewrite decide_False; [done|]. intros [[]%elem_of_nil _].
  - rewrite IH. destruct (decide (u64 x = u64 src)) as [He|He].
    + apply u64_inj in He; [|done|done]. subst x. destruct (m !! src) as [e|]; [|done]. apply decide_ext.
      rewrite elem_of_cons. naive_solver.
    + rewrite i32_u64 by done. assert (x <> src) as Hn by congruence. unfold rxn_copy.
      destruct (m !! src) as [e|] eqn:Em; [|by rewrite Em].
      rewrite lookup_insert_ne, Em by done. destruct (decide (n = x)) as [->|Hnx].
      * rewrite lookup_insert. cbn [renumber body]. rewrite (decide_True (P := x ∈ x :: l /\ x <> src)) by (split; [left|done]).
        by case_decide.
      * rewrite lookup_insert_ne by done. apply decide_ext. rewrite elem_of_cons. naive_solver.
Qed.
Lemma copy_range_spec q m : is_int (source q) -> is_int (start q) -> is_int (finish q) -> same_side (start q) (finish q) ->
  exists m', copy_range q m = Ret m' /\ forall n, m' !! n =
    if decide (start q <= n <= finish q /\ n <> source q)%Z then
      match m !! source q with Some e => Some (Num n n (body e)) | None => m !! n end
    else m !! n.
Proof.
  intros Hs Ha Hb Hss. destruct (seq_u64 _ _ Ha Hb Hss) as [H1 H2]. unfold copy_range.
  destruct (m !! source q) as [e|] eqn:Em.
  - rewrite decide_False by done. eexists. split; [done|]. intros n. rewrite H1.
    rewrite lookup_copy_loop; [|done|].
    + rewrite Em. apply decide_ext. rewrite elem_of_seqZ. lia.
    + apply Forall_forall. intros i Hi%elem_of_seqZ. unfold is_int in *. lia.
  - exists m. split; [done|]. intros n. by case_decide.
Qed.
End Tables.

Definition request_of (o : order) : Model.request := Req (origin o) (first_of (target o)) (last_of (target o)).
Lemma read_order o : sound_order o -> read_request (pretty (origin o)) (span_text (target o)) = Ret (Some (request_of o)).
Proof.
  intros (H1 & H2 & _). unfold read_request.
  pose proof (numeric_span (One (origin o))) as Hn. cbn [span_text] in Hn. rewrite Hn.
  rewrite <- (app_nil_str (pretty (origin o))), scan_pretty by done. cbn [obind fst]. rewrite numeric_span.
  change (match span_text (target o) with String a t => String a (blank_dash t) | "" => "" end) with (cut_tail (span_text (target o))).
  rewrite scan2_cut_tail by done. cbn [obind]. unfold request_of. by destruct (target o).
Qed.
Definition for_kind (k : kind) (o : order) : Prop := kinds o = None \/ kinds o = Some k.
Global Instance for_kind_dec k o : Decision (for_kind k o).
Proof. unfold for_kind. apply _. Defined.
Lemma read_orders os : Forall sound_order os -> forall c,
  exists c', read_copies (map order_line os) c = Ret (c', true) /\
    forall k, c' k = (c k ++ map request_of (filter (for_kind k) os))%list.
Proof.
  intros H. induction H as [|o os Ho Hos IH]; intros c; cbn [map read_copies].
  - exists c. split; [done|]. intros k. by rewrite app_nil_r.
  - cbn [order_line from to what]. rewrite read_order by done. cbn [obind].
    destruct (IH (add_request (kinds o) (request_of o) c)) as (c' & Hc & Hk). rewrite Hc. cbn [obind fst snd].
    exists c'. split; [done|]. intros k. rewrite Hk, filter_cons. unfold add_request. clear Hc Hk IH.
    assert (for_kind k o <-> kinds o = None \/ kinds o = Some k) as Hf by done.
    destruct (decide (for_kind k o)) as [Hd|Hd]; rewrite Hf in Hd; clear Hf; destruct (kinds o) as [k'|].
    + rewrite decide_True by (destruct Hd; congruence). cbn [map]. by rewrite <- app_assoc.
    + cbn [map]. by rewrite <- app_assoc.
    + rewrite decide_False; [done|]. intros ->. apply Hd. by right.
    + destruct Hd. by left.
Qed.

Section Copy.
Context {E : kind -> Type}.
Implicit Types (t : stores E).
Lemma set_table_same k m t : set_table (k := k) m t k = m.
Proof. unfold set_table. destruct (decide (k = k)) as [H|]; [|done]. by rewrite (proof_irrel H eq_refl). Qed.
Lemma set_table_other k k' m t : k <> k' -> set_table (k := k) m t k' = t k'.
Proof. intros H. unfold set_table. by destruct (decide (k = k')). Qed.
Lemma kinds_each ks c (f : stores E) : NoDup ks -> forall t,
  (forall k, k ∈ ks -> copy_kind (c k) (t k) = Ret (f k)) ->
  exists t', copy_kinds ks c t = Ret t' /\ forall k, t' k = if decide (k ∈ ks) then f k else t k.
Proof.
  intros Hd. induction Hd as [|k ks Hk Hd IH]; intros t H; cbn [copy_kinds].
  - exists t. split; [done|]. intros k. rewrite decide_False; [done|]. by intros []%elem_of_nil.
  - rewrite (H k) by left. cbn [obind]. destruct (IH (set_table (f k) t)) as (t' & H1 & H2).
    { intros k' Hk'. rewrite set_table_other by (intros ->; done). apply H. by right. }
    exists t'. split; [done|]. intros k'. rewrite H2. destruct (decide (k' = k)) as [->|Hn].
    + rewrite decide_False by done. rewrite decide_True by left. apply set_table_same.
    + rewrite set_table_other by done. apply decide_ext. rewrite elem_of_cons. naive_solver.
Qed.
Definition obey (o : order) t : stores E := fun k =>
  if decide (for_kind k o) then match copy_range (request_of o) (t k) with Ret m => m | _ => ∅ end else t k.
Lemma obey_sound o t : sound_order o -> obeyed o t (obey o t) /\
  forall k, for_kind k o -> copy_range (request_of o) (t k) = Ret (obey o t k).
Proof.
  intros (Ho1 & Ho2 & Ho3).
  assert (forall k, exists m', copy_range (request_of o) (t k) = Ret m' /\ forall n, m' !! n =
    if decide (first_of (target o) <= n <= last_of (target o) /\ n <> origin o)%Z then
      match t k !! origin o with Some e => Some (Num n n (body e)) | None => t k !! n end
    else t k !! n) as Hc.
  { intros k. apply (copy_range_spec (request_of o) (t k));
      cbn [request_of source start finish]; [done|destruct (target o); cbn in *; [done|apply Ho2]|destruct (target o); cbn in *; [done|apply Ho2]|done]. }
  split.
  - intros k n. unfold obey. change (kinds o = None \/ kinds o = Some k) with (for_kind k o).
    destruct (decide (for_kind k o)); [|done]. destruct (Hc k) as (m' & -> & H). apply H.
  - intros k Hk. unfold obey. rewrite decide_True by done. by destruct (Hc k) as (m' & -> & H).
Qed.
Lemma all_obey os : Forall sound_order os -> forall t,
  exists f : stores E, all_obeyed os t f /\ forall k, copy_kind (map request_of (filter (for_kind k) os)) (t k) = Ret (f k).
Proof.
  intros H. induction H as [|o os Ho Hos IH]; intros t.
  - exists t. split; [by constructor|]. done.
  - destruct (obey_sound o t Ho) as [H1 H2]. destruct (IH (obey o t)) as (f & Hf & Hk). exists f.
    split; [by econstructor|]. intros k. rewrite filter_cons. case_decide as Hd.
    + cbn [map copy_kind]. rewrite H2 by done. cbn [obind]. apply Hk.
    + rewrite <- Hk. f_equal. unfold obey. by rewrite decide_False.
Qed.
Lemma order_complete k : k ∈ copy_order.
Proof. unfold copy_order. destruct k; repeat (first [apply elem_of_list_here|apply elem_of_list_further]). Qed.
Lemma order_nodup : NoDup copy_order.
Proof. apply (bool_decide_unpack _). by vm_compute. Qed.
Lemma copy_all os c t : Forall sound_order os -> (forall k, c k = map request_of (filter (for_kind k) os)) ->
  exists t', copy_kinds copy_order c t = Ret t' /\ all_obeyed os t t'.
Proof.
  intros H Hc. destruct (all_obey os H t) as (f & Hf & Hk).
  destruct (kinds_each copy_order c f order_nodup) with (t := t) as (t' & H1 & H2).
  - intros k _. by rewrite Hc.
  - exists t'. split; [done|].
    assert (forall k, t' k = f k) as Hq by (intros k; rewrite H2, decide_True; [done|apply order_complete]).
    clear H1 H2 Hk Hc H. induction Hf as [t f Hff|o os t t1 f Ho Hos IH].
    + constructor. intros k. by rewrite Hq.
    + econstructor; [done|]. by apply IH.
Qed.
End Copy.
