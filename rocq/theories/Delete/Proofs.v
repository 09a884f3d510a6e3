From Coq Require Import String Ascii ZArith Lia.
From stdpp Require Import prelude strings pretty gmap.
From Verif.Base Require Import Result.
From Verif.Raw Require Model.
From Verif.Delete Require Import Model Spec.
Local Open Scope string_scope.

(** * Numbers *)

Lemma app_assoc3 (a b c : string) : (a +:+ b) +:+ c = a +:+ (b +:+ c).
Proof. induction a as [|x a IH]; [done|]. change (String x ((a +:+ b) +:+ c) = String x (a +:+ (b +:+ c))). by rewrite IH. Qed.
Lemma digit_char (x : N) : (x < 10)%N -> digit (pretty_N_char x) = Some (Z.of_N x).
Proof.
  intros H. assert (x = 0 \/ x = 1 \/ x = 2 \/ x = 3 \/ x = 4 \/ x = 5 \/ x = 6 \/ x = 7 \/ x = 8 \/ x = 9)%N as Hx by lia.
  by destruct_or! Hx; subst x; vm_compute.
Qed.
Lemma go_digits (x : N) : forall s, exists p : Z, forall v b,
  digits v b (pretty_N_go x s) = digits (v * p + Z.of_N x)%Z (b || bool_decide (0 < x)%N) s.
Proof.
  induction (N.lt_wf_0 x) as [x _ IH]; intros s.
  destruct (decide (x = 0)%N) as [->|Hx].
  - exists 1%Z. intros v b. rewrite pretty_N_go_0, orb_false_r. by rewrite Z.mul_1_r, Z.add_0_r.
  - destruct (IH (x / 10)%N ltac:(apply N.div_lt; lia) (String (pretty_N_char (x mod 10)) s)) as [p Hp].
    exists (p * 10)%Z. intros v b. rewrite pretty_N_go_step by lia. rewrite Hp. cbn [digits].
    rewrite digit_char by (apply N.mod_lt; lia).
    rewrite (bool_decide_true (0 < x)%N) by lia. rewrite orb_true_r. f_equal.
    pose proof (N.div_mod' x 10) as Hd. rewrite <- Hd at 3 || idtac. lia.
Qed.
Definition no_digit (s : string) : Prop := match s with EmptyString => True | String a _ => digit a = None end.
Lemma digits_stop v s : no_digit s -> digits v true s = (Some v, s).
Proof. destruct s as [|a s]; [done|]. cbn [no_digit digits]. by intros ->. Qed.

(** the digits of a number: not empty, and digits *)
Fixpoint all_digits (s : string) : Prop := match s with EmptyString => True | String a s' => digit a <> None /\ all_digits s' end.
Lemma go_all (x : N) : forall s, all_digits s -> all_digits (pretty_N_go x s).
Proof.
  induction (N.lt_wf_0 x) as [x _ IH]; intros s Hs.
  destruct (decide (x = 0)%N) as [->|Hx]; [by rewrite pretty_N_go_0|].
  rewrite pretty_N_go_step by lia. apply IH; [apply N.div_lt; lia|].
  cbn [all_digits]. split; [|done]. rewrite digit_char by (apply N.mod_lt; lia). done.
Qed.
Lemma go_app (x : N) : forall s t, pretty_N_go x (s +:+ t) = pretty_N_go x s +:+ t.
Proof.
  induction (N.lt_wf_0 x) as [x _ IH]; intros s t.
  destruct (decide (x = 0)%N) as [->|Hx]; [by rewrite !pretty_N_go_0|].
  rewrite !(pretty_N_go_step x) by lia. rewrite <- IH by (apply N.div_lt; lia). done.
Qed.
Lemma pretty_N_digits (x : N) : all_digits (pretty x) /\ pretty x <> "".
Proof.
  unfold pretty, pretty_N. case_decide as H.
  - split; [|done]. cbn. split; [done|done].
  - split; [by apply go_all|]. rewrite pretty_N_go_step by lia.
    change (String (pretty_N_char (x mod 10)) "") with ("" +:+ String (pretty_N_char (x mod 10)) "").
    rewrite go_app. by destruct (pretty_N_go _ _).
Qed.
Lemma pretty_N_read (x : N) s : no_digit s -> digits 0 false (pretty x +:+ s) = (Some (Z.of_N x), s).
Proof.
  intros Hs. unfold pretty, pretty_N. case_decide as H.
  - subst x. change ("0" +:+ s) with (String "0" s). cbn [digits]. change (digit "0") with (Some 0%Z). by apply digits_stop.
  - rewrite <- go_app. change ("" +:+ s) with s. destruct (go_digits x s) as [p Hp]. rewrite Hp.
    rewrite bool_decide_true by lia. rewrite orb_true_r. rewrite digits_stop by done. f_equal.
Qed.

(** a number, with its sign *)
Lemma pretty_Z_cases (z : Z) : exists x : N,
  ((0 <= z)%Z /\ z = Z.of_N x /\ pretty z = pretty x) \/ ((z < 0)%Z /\ z = (- Z.of_N x)%Z /\ pretty z = String "-" (pretty x)).
Proof.
  destruct z as [|p|p].
  - exists 0%N. left. done.
  - exists (Npos p). left. split_and!; [lia|done|done].
  - exists (Npos p). right. split_and!; [lia|done|done].
Qed.
Lemma digit_cases a : digit a <> None -> a <> "-"%char /\ a <> "+"%char /\ a <> "&"%char /\ Raw.Model.blank a = false.
Proof.
  intros H. split_and!; try (intros ->; by apply H).
  unfold digit in H. case_decide as Hd; [|done]. unfold Raw.Model.blank.
  rewrite !bool_decide_false by lia. apply andb_false_iff. right. apply bool_decide_false. lia.
Qed.
Lemma get_int_pretty (z : Z) s : is_int z -> no_digit s -> get_int (pretty z +:+ s) = (Some z, s).
Proof.
  intros Hz Hs. assert (in_int z = true) as Hi.
  { unfold in_int, int_min, int_max. unfold is_int in Hz. apply andb_true_iff. split; apply Z.leb_le; lia. }
  destruct (pretty_Z_cases z) as [x [(H1 & H2 & H3)|(H1 & H2 & H3)]]; rewrite H3.
  - destruct (pretty_N_digits x) as [Ha Hn]. pose proof (pretty_N_read x s Hs) as Hr.
    destruct (pretty x) as [|a u] eqn:E; [done|]. cbn [all_digits] in Ha.
    destruct (digit_cases a (proj1 Ha)) as (? & ? & ? & Hb).
    change (String a u +:+ s) with (String a (u +:+ s)) in *. unfold get_int. cbn [skip]. rewrite Hb.
    destruct (Ascii.eqb_spec a "-"); [done|]. destruct (Ascii.eqb_spec a "+"); [done|]. rewrite Hr.
    rewrite <- H2, Hi. done.
  - change (String "-" (pretty x) +:+ s) with (String "-" (pretty x +:+ s)).
    unfold get_int. cbn [skip]. change (Raw.Model.blank "-") with false. cbn match.
    change (Ascii.eqb "-" "-") with true. cbn match. rewrite (pretty_N_read x s Hs).
    rewrite <- H2, Hi. done.
Qed.
Lemma get_int_blank s : get_int (String " " s) = get_int s.
Proof. reflexivity. Qed.

(** * The word *)

Lemma mark_cons a s : a <> "-"%char -> mark (String a s) = String a (mark s).
Proof. intros H. cbn [mark]. destruct s as [|b s]; [done|]. by destruct (Ascii.eqb_spec a "-"). Qed.
Lemma mark_digits u s : all_digits u -> mark (u +:+ s) = u +:+ mark s.
Proof.
  induction u as [|a u IH]; [done|]. intros [H1 H2]. change (String a u +:+ s) with (String a (u +:+ s)).
  rewrite mark_cons by (by apply digit_cases). by rewrite IH.
Qed.
Lemma mark_dash u s : all_digits u -> u <> "" -> mark (String "-" (u +:+ s)) = String "-" (u +:+ mark s).
Proof.
  intros H1 H2. rewrite <- mark_digits by done. destruct u as [|a u]; [done|].
  change (String a u +:+ s) with (String a (u +:+ s)). cbn [mark].
  destruct (digit_cases a (proj1 H1)) as (Ha & _). destruct (Ascii.eqb_spec a "-"); [done|]. done.
Qed.
Lemma swap_digits u s : all_digits u -> swap_all (u +:+ s) = u +:+ swap_all s.
Proof.
  induction u as [|a u IH]; [done|]. intros [H1 H2]. change (String a u +:+ s) with (String a (u +:+ s)).
  cbn [swap_all]. rewrite IH by done. destruct (digit_cases a H1) as (? & ? & ? & _).
  destruct (Ascii.eqb_spec a "-"); [done|]. destruct (Ascii.eqb_spec a "&"); [done|]. done.
Qed.
(** a number in front *)
Lemma swap_mark_front (z : Z) s : swap (mark (pretty z +:+ s)) = pretty z +:+ swap_all (mark s).
Proof.
  destruct (pretty_Z_cases z) as [x [(_ & _ & H3)|(_ & _ & H3)]]; rewrite H3; destruct (pretty_N_digits x) as [Ha Hn].
  - rewrite mark_digits by done. destruct (pretty x) as [|a u] eqn:E; [done|].
    change (swap (String a (u +:+ mark s)) = String a (u +:+ swap_all (mark s))).
    cbn [swap]. by rewrite swap_digits by apply Ha.
  - change (String "-" (pretty x) +:+ s) with (String "-" (pretty x +:+ s)). rewrite mark_dash by done.
    cbn [swap]. by rewrite swap_digits.
Qed.
Lemma app_nil_str s : s +:+ "" = s.
Proof. induction s as [|a s IH]; [done|]. change (String a (s +:+ "") = String a s). by rewrite IH. Qed.
Lemma swap_mark_span (a b : Z) : swap (mark (span_text (Span a b))) = pretty a +:+ String " " (pretty b).
Proof.
  cbn [span_text]. rewrite swap_mark_front. f_equal.
  change ("-" +:+ pretty b) with (String "-" (pretty b)).
  destruct (pretty_Z_cases b) as [x [(_ & _ & H3)|(_ & _ & H3)]]; rewrite H3; destruct (pretty_N_digits x) as [Ha Hn].
  - rewrite <- (app_nil_str (pretty x)) at 1. rewrite mark_dash by done.
    cbn [swap_all]. rewrite swap_digits by done. by rewrite app_nil_str.
  - cbn [mark]. change (Ascii.eqb "-" "-") with true. cbn [andb]. cbn [swap_all].
    rewrite <- (app_nil_str (pretty x)) at 1. rewrite swap_digits by done. by rewrite app_nil_str.
Qed.
Lemma swap_mark_one (a : Z) : swap (mark (span_text (One a))) = pretty a.
Proof. cbn [span_text]. rewrite <- (app_nil_str (pretty a)) at 1. rewrite swap_mark_front. by rewrite app_nil_str. Qed.

Definition cover (r : span) : gset Z :=
  match r with One a => {[a]} | Span a b => if decide (a = b) then {[a]} else range (Z.min a b) (Z.max a b) end.
Lemma elem_range n i j : n ∈ range i j <-> (i <= n <= j)%Z.
Proof. unfold range. rewrite elem_of_list_to_set, elem_of_seqZ. lia. Qed.
Lemma elem_cover n r : n ∈ cover r <-> within n r.
Proof.
  destruct r as [a|a b]; cbn [cover within]; [apply elem_of_singleton|]. case_decide as H.
  - rewrite elem_of_singleton. lia.
  - rewrite elem_range. lia.
Qed.
Lemma pretty_Z_ne (z : Z) : pretty z <> "".
Proof. destruct (pretty_Z_cases z) as [x [(_ & _ & H3)|(_ & _ & H3)]]; rewrite H3; [apply pretty_N_digits|done]. Qed.
Lemma span_text_ne r : span_text r <> "".
Proof.
  pose proof (pretty_Z_ne (match r with One a => a | Span a _ => a end)) as H.
  destruct r as [a|a b]; cbn [span_text]; [done|]. by destruct (pretty a).
Qed.
Lemma augment_ne token it : token <> "" -> augment token it =
  let s := swap (mark token) in
  let '(o1, r1) := get_int s in
    match o1 with
    | None => Ret (Item true (numbers it))
    | Some a =>
        match (get_int r1).1 with
        | None => Ret (Item true ({[a]} ∪ numbers it))
        | Some b =>
            if decide (a = b) then Ret (Item true ({[a]} ∪ numbers it))
            else if decide (Z.max a b = int_max) then UB
            else Ret (Item true (range (Z.min a b) (Z.max a b) ∪ numbers it))
        end
    end.
Proof. by destruct token. Qed.
Lemma augment_span r it : fits r -> augment (span_text r) it = Ret (Item true (cover r ∪ numbers it)).
Proof.
  intros Hf. rewrite augment_ne by apply span_text_ne. destruct r as [a|a b]; cbn [fits] in Hf.
  - rewrite swap_mark_one. cbn zeta. rewrite <- (app_nil_str (pretty a)). rewrite (get_int_pretty a "") by done. done.
  - destruct Hf as (H1 & H2 & H3). rewrite swap_mark_span. cbn zeta.
    rewrite (get_int_pretty a (String " " (pretty b))) by done. rewrite get_int_blank.
    rewrite <- (app_nil_str (pretty b)). rewrite (get_int_pretty b "") by done. cbn [fst cover].
    case_decide as H; [done|]. rewrite decide_False; [done|]. unfold int_max. lia.
Qed.
Lemma numeric_span r : numeric (span_text r) = true.
Proof.
  assert (forall (z : Z) s, numeric (pretty z +:+ s) = true) as H.
  { intros z s. destruct (pretty_Z_cases z) as [x [(_ & _ & H3)|(_ & _ & H3)]]; rewrite H3.
    - destruct (pretty_N_digits x) as [Ha Hn]. destruct (pretty x) as [|a u]; [done|].
      change (String a u +:+ s) with (String a (u +:+ s)). cbn [numeric]. rewrite bool_decide_true; [done|].
      apply not_eq_None_Some. apply Ha.
    - change (String "-" (pretty x) +:+ s) with (String "-" (pretty x +:+ s)). done. }
  destruct r as [a|a b]; cbn [span_text]; [|apply H]. rewrite <- (app_nil_str (pretty a)). apply H.
Qed.

(** * Lines *)

Definition covers (l : list span) : gset Z := ⋃ (cover <$> l).
Lemma elem_covers n l : n ∈ covers l <-> exists x, x ∈ l /\ within n x.
Proof.
  unfold covers. rewrite elem_of_union_list. split.
  - intros (X & HX & Hn). apply elem_of_list_fmap in HX as (x & -> & Hx). exists x. by rewrite <- elem_cover.
  - intros (x & Hx & Hn). exists (cover x). rewrite elem_cover. split; [|done]. by apply elem_of_list_fmap_1.
Qed.
Lemma read_spans l it : Forall fits l ->
  read_words (map span_text l) it = Ret (Item true (covers l ∪ numbers it), true).
Proof.
  intros H. revert it. induction H as [|x l Hx Hl IH]; intros it; cbn [map read_words].
  - cbn [augment obind]. do 3 f_equal. unfold covers. set_solver.
  - rewrite numeric_span, augment_span by done. cbn [obind]. rewrite IH. cbn [numbers]. do 3 f_equal.
    unfold covers. rewrite fmap_cons, union_list_cons. set_solver.
Qed.

(** Words that begin like a number are not keywords nor options. *)
Definition target_of (s : subject) : target := match s with Of k => Kind k | Of_cells => Cell end.
Lemma get_option_name nm s args : means nm s -> get_option (("-" +:+ nm) :: args) = (IsOpt (target_of s), args).
Proof. intros H. destruct s as [[]|]; cbn in H; destruct_or?; subst nm; by vm_compute. Qed.
Definition head (s : string) : option ascii := match s with EmptyString => None | String a _ => Some a end.
Lemma lowered_head s a : head s = Some a -> (a = "-"%char \/ digit a <> None) -> head (Reactant.Model.lowered s) = Some a.
Proof.
  intros H Ha. destruct s as [|b s]; [done|]. injection H as ->.
  destruct Ha as [->|Ha]; [done|]. destruct a as [[] [] [] [] [] [] [] []]; try (by exfalso; apply Ha); done.
Qed.
Lemma not_in_names s a (l : list string) : head s = Some a -> forallb (fun w => negb (bool_decide (head w = Some a))) l = true ->
  existsb (String.eqb s) l = false.
Proof.
  intros Hs. induction l as [|w l IH]; [done|]. cbn [forallb existsb]. intros [H1 H2]%andb_true_iff.
  rewrite IH by done. destruct (String.eqb_spec s w) as [->|]; [|done]. by rewrite bool_decide_true in H1.
Qed.
Lemma not_found s a (l : list string) i : head s = Some a -> forallb (fun w => negb (bool_decide (head w = Some a))) l = true ->
  Raw.Model.find_option true s l i = None.
Proof.
  intros Hs. revert i. induction l as [|w l IH]; intros i; [done|]. cbn [forallb Raw.Model.find_option]. intros [H1 H2]%andb_true_iff.
  rewrite IH by done. destruct (String.eqb_spec w s) as [->|]; [|done]. by rewrite bool_decide_true in H1.
Qed.
Lemma plain_word w a args : head w = Some a -> (a = "-"%char \/ digit a <> None) -> Raw.Model.dashed w = None ->
  get_option (w :: args) = (IsPlain, (w :: args)%list).
Proof.
  intros Hw Ha Hd. unfold get_option. unfold Raw.Model.keyword. pose proof (lowered_head w a Hw Ha) as Hl.
  rewrite (not_in_names _ a) by (done || (destruct Ha as [->|Ha]; [by vm_compute|destruct a as [[] [] [] [] [] [] [] []]; try (by exfalso; apply Ha); by vm_compute])).
  rewrite Hd.
  rewrite (not_found _ a) by (done || (destruct Ha as [->|Ha]; [by vm_compute|destruct a as [[] [] [] [] [] [] [] []]; try (by exfalso; apply Ha); by vm_compute])).
  done.
Qed.
Lemma plain_number (z : Z) s args : get_option ((pretty z +:+ s) :: args) = (IsPlain, ((pretty z +:+ s) :: args)%list).
Proof.
  destruct (pretty_Z_cases z) as [x [(_ & _ & H3)|(_ & _ & H3)]]; rewrite H3; destruct (pretty_N_digits x) as [Ha Hn];
    destruct (pretty x) as [|a u]; try done; destruct Ha as [Ha _].
  - change (String a u +:+ s) with (String a (u +:+ s)). apply (plain_word _ a); [done|by right|].
    cbn [Raw.Model.dashed]. destruct (digit_cases a Ha) as (Hd & _). destruct (u +:+ s); [done|].
    by destruct (Ascii.eqb_spec a "-").
  - change (String "-" (String a u) +:+ s) with (String "-" (String a (u +:+ s))). apply (plain_word _ "-"%char); [done|by left|].
    cbn [Raw.Model.dashed]. destruct a as [[] [] [] [] [] [] [] []]; try (by exfalso; apply Ha); done.
Qed.
Lemma plain_span x args : get_option (span_text x :: args) = (IsPlain, (span_text x :: args)%list).
Proof. destruct x as [a|a b]; cbn [span_text]; [|apply plain_number]. rewrite <- (app_nil_str (pretty a)). apply plain_number. Qed.

(** * Requests *)

Global Instance subject_eq_dec : EqDecision subject.
Proof. solve_decision. Defined.
Definition at_subject (s : subject) (b : lists) : item := match s with Of k => items b k | Of_cells => cell b end.
Definition step (s : subject) (b : lists) (l : list span) : lists :=
  match s with
  | Of k => set_item k (Item true (covers l ∪ numbers (items b k))) b
  | Of_cells => Lists (items b) (Item true (covers l ∪ numbers (cell b)))
  end.
Lemma at_step s s' b l : at_subject s (step s' b l) =
  if decide (s = s') then Item true (covers l ∪ numbers (at_subject s b)) else at_subject s b.
Proof.
  destruct s as [k|], s' as [k'|]; cbn [step at_subject set_item items cell]; try done; repeat case_decide; try done; congruence.
Qed.
Lemma with_spans s b l : Forall fits l -> with_item (target_of s) b (map span_text l) = Ret (step s b l, true).
Proof. intros H. destruct s as [k|]; cbn [target_of with_item]; by rewrite read_spans. Qed.
Lemma again {A B} (x : outcome (A * B)) : obind x (fun r => Ret (r.1, r.2)) = x.
Proof. by destruct x as [[]| |]. Qed.
Lemma read_more s ls rest b : Forall (fun l => l <> [] /\ Forall fits l) ls ->
  read_lines (Some (target_of s)) (map (map span_text) ls ++ rest) b =
  read_lines (Some (target_of s)) rest (foldl (step s) b ls).
Proof.
  intros H. revert b. induction H as [|l ls [H1 H2] H IH]; intros b; [done|].
  cbn [map app read_lines foldl]. destruct l as [|x l]; [done|]. cbn [map].
  rewrite plain_span. change (span_text x :: map span_text l)%list with (map span_text (x :: l)).
  rewrite with_spans by done. cbn [obind fst snd andb]. rewrite again. apply IH.
Qed.
Definition do_request (b : lists) (r : request) : lists := foldl (step (about r)) (step (about r) b (first r)) (more r).
Lemma read_request save r rest b : sound_request r ->
  exists save', read_lines save (request_lines r ++ rest) b = read_lines save' rest (do_request b r).
Proof.
  intros (H1 & H2 & H3). exists (Some (target_of (about r))). unfold request_lines. cbn [app read_lines].
  rewrite (get_option_name _ _ _ H1). rewrite with_spans by done. cbn [obind fst snd andb]. rewrite again. by apply read_more.
Qed.
Lemma read_requests rs : forall save b, Forall sound_request rs ->
  read_lines save (concat (map request_lines rs)) b = Ret (foldl do_request b rs, true).
Proof.
  induction rs as [|r rs IH]; intros save b H; [done|]. apply Forall_cons in H as [H1 H2].
  cbn [map concat foldl]. destruct (read_request save r (concat (map request_lines rs)) b H1) as [save' ->]. by apply IH.
Qed.

Lemma covers_app l l' : covers (l ++ l') = covers l ∪ covers l'.
Proof. unfold covers. by rewrite fmap_app, union_list_app_L. Qed.
Lemma at_more s s' ls : forall b, at_subject s (foldl (step s') b ls) =
  if decide (s = s' /\ ls <> []) then Item true (covers (concat ls) ∪ numbers (at_subject s b)) else at_subject s b.
Proof.
  induction ls as [|l ls IH]; intros b; cbn [foldl concat].
  - rewrite decide_False by naive_solver. done.
  - rewrite IH, at_step. rewrite covers_app.
    destruct (decide (s = s')) as [Hs|Hs].
    + rewrite (decide_True (P := s = s' /\ (l :: ls)%list <> [])) by done. case_decide as H; cbn [numbers].
      * f_equal. set_solver.
      * assert (ls = []) as -> by (destruct ls; [done|]; exfalso; by apply H). f_equal. unfold covers. cbn. set_solver.
    + rewrite !decide_False by tauto. done.
Qed.
Lemma at_request s b r : at_subject s (do_request b r) =
  if decide (s = about r) then Item true (covers (first r ++ concat (more r)) ∪ numbers (at_subject s b)) else at_subject s b.
Proof.
  unfold do_request. rewrite at_more, at_step. rewrite covers_app.
  destruct (decide (s = about r)) as [Hs|Hs].
  - case_decide as H; cbn [numbers].
    + f_equal. set_solver.
    + assert (more r = []) as -> by (destruct (more r); [done|]; exfalso; by apply H). f_equal. unfold covers. cbn. set_solver.
  - rewrite !decide_False by tauto. done.
Qed.
Lemma at_requests s rs : forall b,
  (mentioned s rs -> defined (at_subject s (foldl do_request b rs)) = true) /\
  (~ mentioned s rs -> at_subject s (foldl do_request b rs) = at_subject s b) /\
  (forall n, n ∈ numbers (at_subject s (foldl do_request b rs)) <->
     n ∈ numbers (at_subject s b) \/ exists x, listed s rs x /\ within n x).
Proof.
  induction rs as [|r rs IH]; intros b; cbn [foldl].
  - split_and!; [by intros (? & []%elem_of_nil & _)|done|]. intros n. split; [by left|].
    intros [?|(x & (? & []%elem_of_nil & _) & _)]; done.
  - destruct (IH (do_request b r)) as (H1 & H2 & H3). rewrite at_request in H2, H3.
    assert (mentioned s (r :: rs) <-> s = about r \/ mentioned s rs) as Hm.
    { unfold mentioned. setoid_rewrite elem_of_cons. split; [|naive_solver]. intros (r' & [->|?] & <-); [by left|right; eauto]. }
    assert (forall x, listed s (r :: rs) x <-> (s = about r /\ x ∈ (first r ++ concat (more r))%list) \/ listed s rs x) as Hl.
    { intros x. unfold listed. setoid_rewrite elem_of_cons. split.
      - intros (r' & [->|?] & <- & ?); [by left|right; eauto].
      - intros [[-> ?]|(r' & ? & ? & ?)]; eauto 6. }
    split_and!.
    + intros Hr. destruct (decide (s = about r)) as [Hs|Hs].
      * assert (Decision (mentioned s rs)) as Hd.
        { unfold mentioned. destruct (decide (Exists (fun r' => about r' = s) rs)) as [E|E]; rewrite Exists_exists in E; [left|right]; done. }
        destruct (decide (mentioned s rs)) as [Hr'|Hr']; [by apply H1|]. rewrite H2 by done. done.
      * apply H1. apply Hm in Hr as [?|?]; done.
    + intros Hr. rewrite H2 by (intros ?; apply Hr, Hm; by right).
      rewrite decide_False; [done|]. intros ->. apply Hr, Hm. by left.
    + intros n. rewrite H3. setoid_rewrite Hl. case_decide as Hs; cbn [numbers].
      * rewrite elem_of_union, elem_covers. naive_solver.
      * naive_solver.
Qed.

(** * Settling and deleting *)

Lemma skip_all it l : defined it = true -> numbers it = ∅ -> foldl (fun it i => augment_int i it) it l = it.
Proof.
  intros H1 H2. induction l as [|i l IH]; [done|]. cbn [foldl]. unfold augment_int at 2. rewrite H1, bool_decide_true by done. done.
Qed.
Lemma take_all it l : ~ (defined it = true /\ numbers it = ∅) -> l <> [] ->
  foldl (fun it i => augment_int i it) it l = Item true (list_to_set l ∪ numbers it).
Proof.
  revert it. induction l as [|i l IH]; intros it Hi Hl; [done|]. cbn [foldl].
  assert (augment_int i it = Item true ({[i]} ∪ numbers it)) as ->.
  { unfold augment_int. destruct (defined it) eqn:E; [|done]. cbn [andb]. rewrite bool_decide_false; [done|]. intros H. by apply Hi. }
  destruct l as [|j l]; [cbn; f_equal; set_solver|].
  rewrite IH; [|cbn [numbers defined]; intros [_ H]; set_solver|done]. cbn [numbers]. f_equal.
  rewrite (list_to_set_cons i). set_solver.
Qed.
Lemma lookup_erase {A} it (m : gmap Z A) n : erase it m !! n =
  if decide (defined it = true /\ (numbers it = ∅ \/ n ∈ numbers it)) then None else m !! n.
Proof.
  unfold erase. destruct (defined it); [|by rewrite decide_False by (by intros [? _])].
  case_decide as H; [rewrite decide_True by (split; [done|by left]); apply lookup_empty|].
  assert (forall l (m : gmap Z A), foldl (fun m n => delete n m) m l !! n = if decide (n ∈ l) then None else m !! n) as Hf.
  { clear. induction l as [|i l IH]; intros m; cbn [foldl]; [rewrite decide_False by (by intros []%elem_of_nil); done|].
    rewrite IH. destruct (decide (n ∈ l)); [by rewrite decide_True by (by right)|].
    destruct (decide (n = i)) as [->|Hn].
    - rewrite decide_True by left. apply lookup_delete.
    - rewrite decide_False by (intros [?|?]%elem_of_cons; done). by apply lookup_delete_ne. }
  rewrite Hf. destruct (decide (n ∈ elements (numbers it))) as [E|E]; rewrite elem_of_elements in E.
  - by rewrite decide_True by (split; [done|by right]).
  - by rewrite decide_False by (intros [_ [?|?]]; done).
Qed.

Lemma no_numbers s rs b : numbers (at_subject s b) = ∅ ->
  (numbers (at_subject s (foldl do_request b rs)) = ∅ <-> forall x, ~ listed s rs x).
Proof.
  intros Hb. destruct (at_requests s rs b) as (_ & _ & H3). split.
  - intros He x Hx. set (n := match x with One a => a | Span a _ => a end).
    assert (within n x) as Hn by (destruct x; cbn [n within]; subst n; lia).
    assert (n ∈ numbers (at_subject s (foldl do_request b rs))) as Hi by (apply H3; right; eauto).
    rewrite He in Hi. set_solver.
  - intros Hx. apply set_eq. intros n. rewrite H3, Hb. split; [|set_solver].
    intros [?|(x & Hl & _)]; [done|]. by destruct (Hx x).
Qed.
Lemma mentioned_dec s rs : Decision (mentioned s rs).
Proof.
  unfold mentioned. destruct (decide (Exists (fun r' => about r' = s) rs)) as [E|E]; rewrite Exists_exists in E; [left|right]; done.
Qed.
Lemma settled rs b k n : idle b -> cell b = off ->
  let it := items (settle (foldl do_request b rs)) k in
  (defined it = true /\ (numbers it = ∅ \/ n ∈ numbers it)) <-> gone rs k n.
Proof.
  intros Hi Hc. set (b' := foldl do_request b rs). cbn zeta.
  destruct (at_requests Of_cells rs b) as (C1 & C2 & C3). destruct (at_requests (Of k) rs b) as (K1 & K2 & K3).
  pose proof (no_numbers Of_cells rs b ltac:(cbn [at_subject]; by rewrite Hc)) as C4.
  pose proof (no_numbers (Of k) rs b ltac:(cbn [at_subject]; by rewrite Hi)) as K4.
  cbn [at_subject] in *. rewrite Hc in C2, C3. rewrite Hi in K2, K3. fold b' in C1, C2, C3, C4, K1, K2, K3, K4.
  change (numbers off) with (∅ : gset Z) in C3, K3.
  assert (defined (items b' k) = true <-> mentioned (Of k) rs) as Kd.
  { split; [|done]. intros H. destruct (mentioned_dec (Of k) rs) as [|Hn]; [done|]. by rewrite K2 in H. }
  unfold gone, all_of. unfold settle.
  destruct (mentioned_dec Of_cells rs) as [Hm|Hm].
  - rewrite C1 by done. case_decide as He.
    + cbn [set_all items defined numbers]. split; [|by auto]. intros _. left. split; [done|]. by apply C4.
    + cbn [transfer_all items].
      assert (elements (numbers (cell b')) <> []) as Hl by (by rewrite elements_empty_iff, <- leibniz_equiv_iff || (intros H%elements_empty_inv; apply He; by apply leibniz_equiv)).
      destruct (decide (defined (items b' k) = true /\ numbers (items b' k) = ∅)) as [[Ha Hb]|Hn].
      * rewrite skip_all by done. split; [|by auto]. intros _. right. left. split; [by apply Kd|by apply K4].
      * rewrite take_all by done. cbn [defined numbers]. rewrite list_to_set_elements_L. split.
        -- intros [_ [H|H]].
           ++ exfalso. apply He. set_solver.
           ++ right. right. apply elem_of_union in H as [H|H].
              ** apply C3 in H as [[]%elem_of_empty|(x & ? & ?)]. exists x. auto.
              ** apply K3 in H as [[]%elem_of_empty|(x & ? & ?)]. exists x. auto.
        -- intros [[_ H]|[[H1 H2]|(x & Hx & Hw)]].
           ++ exfalso. apply He. by apply C4.
           ++ exfalso. apply Hn. split; [by apply Kd|by apply K4].
           ++ split; [done|]. right. apply elem_of_union. destruct Hx as [Hx|Hx]; [right; apply K3|left; apply C3]; eauto.
  - rewrite C2 by done. cbn [defined off].
    assert (forall x, ~ listed Of_cells rs x) as Hno.
    { intros x (r & Hr & Ha & _). apply Hm. by exists r. }
    split.
    + intros [H1 [H2|H2]].
      * right. left. split; [by apply Kd|by apply K4].
      * right. right. apply K3 in H2 as [[]%elem_of_empty|(x & ? & ?)]. exists x. auto.
    + intros [[H _]|[[H1 H2]|(x & [Hx|Hx] & Hw)]].
      * done.
      * split; [by apply Kd|]. left. by apply K4.
      * split; [|right; apply K3; eauto]. apply Kd. destruct Hx as (r & ? & ? & _). by exists r.
      * by destruct (Hno x).
Qed.
