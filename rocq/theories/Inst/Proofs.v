From Coq Require Import Ascii String.
From stdpp Require Import prelude strings gmap.
From Verif.Inst Require Import Model Spec.
Open Scope list_scope.

(** * Lines *)
Lemma app_assoc_s (a b c : string) : (a +:+ (b +:+ c) = (a +:+ b) +:+ c)%string.
Proof. induction a as [|x a IH]; [done|]. change (String x (a +:+ (b +:+ c)) = String x ((a +:+ b) +:+ c))%string. by rewrite IH. Qed.
Lemma app_nil_s (a : string) : (a +:+ "" = a)%string.
Proof. induction a as [|x a IH]; [done|]. change (String x (a +:+ "") = String x a)%string. by rewrite IH. Qed.
Lemma no_newline_app a b : no_newline a -> no_newline b -> no_newline (a +:+ b).
Proof. induction a as [|x a IH]; cbn; [done|]. intros [H1 H2] Hb. split; [done|]. by apply IH. Qed.
Lemma newline_code c : nat_of_ascii c = 10 -> c = newline.
Proof. intros H. unfold newline. rewrite <- H. symmetry. apply ascii_nat_embedding. Qed.
Lemma getlines_ok s : forall cur, no_newline cur -> text_lines (getlines cur s) (cur +:+ s).
Proof.
  induction s as [|c s IH]; intros cur Hc; cbn [getlines].
  - rewrite app_nil_s. destruct (decide (cur = "")) as [->|Hn]; [constructor|by constructor].
  - destruct (decide (c = newline)) as [->|Hn].
    + apply tl_cons; [done|]. apply (IH ""). done.
    + replace (cur +:+ String c s)%string with ((cur +:+ String c "") +:+ s)%string.
      * apply IH. apply no_newline_app; [done|]. cbn. split; [|done]. intros E. by apply Hn, newline_code.
      * by rewrite <- app_assoc_s.
Qed.
Lemma lines_ok s : text_lines (lines_in s) s.
Proof. apply (getlines_ok s "" I). Qed.
Lemma no_newline_cut a b t u : no_newline a -> no_newline b ->
  (a +:+ String newline t = b +:+ String newline u)%string -> a = b /\ t = u.
Proof.
  revert b. induction a as [|x a IH]; intros [|y b] Ha Hb; cbn; intros E.
  - by injection E as ->.
  - injection E as <- _. by destruct Hb as [[] _].
  - injection E as -> _. by destruct Ha as [[] _].
  - injection E as -> E. destruct Ha as [_ Ha], Hb as [_ Hb]. destruct (IH b Ha Hb E) as [-> ->]. done.
Qed.
Lemma no_newline_not a t : no_newline (a +:+ String newline t) -> False.
Proof. induction a as [|x a IH]; cbn; intros [H1 H2]; [by apply H1|by apply IH]. Qed.
Lemma text_lines_unique ls t : text_lines ls t -> forall ls', text_lines ls' t -> ls = ls'.
Proof.
  induction 1 as [|l Hl Hn|l ls t Hn H IH]; intros ls' H'.
  - inversion H' as [|? Hx|l' ? ? ? ? Hx]; subst; try done. by destruct l'.
  - inversion H' as [|?|l' ls2 t' Hn' H2 E]; subst; try done.
    exfalso. by apply (no_newline_not l' t').
  - inversion H' as [E|l' Hl' Hn' E1 E|l' ls2 t' Hn' H2 E1 E].
    + by destruct l.
    + subst. exfalso. by apply (no_newline_not l t).
    + destruct (no_newline_cut l' l t' t Hn' Hn E) as [-> ->]. f_equal. by apply IH.
Qed.

Section Proofs.
Context {E : Type} (g : engine E).
Local Notation inst := (inst E).

(** * Events *)
Lemma play_flags (e : ev E) (s : inst) : i_logon (play s e) = i_logon s /\ i_outon (play s e) = i_outon s /\
  i_dumpon (play s e) = i_dumpon s /\ i_selon (play s e) = i_selon s /\ i_cur (play s e) = i_cur s /\
  i_loaded (play s e) = i_loaded s /\ i_input (play s e) = i_input s /\ i_clear (play s e) = i_clear s /\
  i_update (play s e) = i_update s /\ i_comps (play s e) = i_comps s /\ i_erron (play s e) = i_erron s /\
  i_errors (play s e) = i_errors s.
Proof. destruct s, e; cbn; try (split_and!; reflexivity); case_match; split_and!; reflexivity. Qed.
Lemma plays_flags es : forall s : inst, let t := fold_left play es s in
  i_logon t = i_logon s /\ i_outon t = i_outon s /\ i_dumpon t = i_dumpon s /\ i_selon t = i_selon s /\
  i_cur t = i_cur s /\ i_loaded t = i_loaded s /\ i_input t = i_input s /\ i_clear t = i_clear s /\
  i_update t = i_update s /\ i_comps t = i_comps s /\ i_erron t = i_erron s /\ i_errors t = i_errors s.
Proof.
  induction es as [|e es IH]; intros s; cbn [fold_left]; [done|]. specialize (IH (play s e)). cbn zeta in *.
  destruct (play_flags e s) as (-> & H2 & H3 & H4 & H5 & H6 & H7 & H8 & H9 & H10 & H11 & H12) in IH.
  rewrite H2, H3, H4, H5, H6, H7, H8, H9, H10, H11, H12 in IH. exact IH.
Qed.

(** a run so far: no lines yet, and no text that is not wanted *)
Definition blank (s : inst) : Prop :=
  i_loglines s = [] /\ i_outlines s = [] /\ i_sellines s = ∅ /\ (i_logon s = false -> i_log s = "") /\
  (i_outon s = false -> i_out s = "") /\ (forall n, sel_on n s = false -> default "" (i_sels s !! n) = "").
Lemma begin_lookup (l : list Z) (m : gmap Z string) n :
  default "" (foldr (fun n m => if decide (is_Some (m !! n)) then m else <[n := ""]> m) m l !! n) = default "" (m !! n).
Proof.
  induction l as [|a l IH]; cbn; [done|]. case_decide as H; [done|]. destruct (decide (a = n)) as [->|Hn].
  - rewrite lookup_insert. cbn. rewrite <- IH. destruct (foldr _ _ _ !! n); [|done]. destruct H. by eexists.
  - by rewrite lookup_insert_ne.
Qed.
Lemma sel_on_eq n (s t : inst) : i_selon t = i_selon s -> i_cur t = i_cur s -> sel_on n t = sel_on n s.
Proof. unfold sel_on. by intros -> ->. Qed.
Lemma play_blank e s : blank s -> blank (play s e).
Proof.
  intros (H1 & H2 & H3 & H4 & H5 & H6). destruct s, e; unfold blank in *; cbn in *; try (by split_and!).
  - destruct i_logon; cbn; by split_and!.
  - destruct i_outon; cbn; by split_and!.
  - destruct (i_erron && i_errors); by split_and!.
  - unfold sel_on in *. cbn in *. destruct (default false (i_selon !! i_cur)) eqn:Hc; cbn; split_and!; try done; intros m Hm; [congruence|by apply (H6 m)].
  - split_and!; try done. intros m Hm. rewrite begin_lookup. by apply H6.
  - destruct i_dumpon; by split_and!.
Qed.
Lemma plays_blank es : forall s, blank s -> blank (fold_left play es s).
Proof. induction es as [|e es IH]; intros s H; cbn; [done|]. by apply IH, play_blank. Qed.
Lemma clear_blank s : blank (clear_results s).
Proof. destruct s. unfold blank. cbn. split_and!; done. Qed.

(** * The end of a run *)
Lemma line_ups l : forall s : inst, NoDup l -> let t := fold_left line_up l s in
  i_sels t = i_sels s /\ i_selon t = i_selon s /\ i_cur t = i_cur s /\ i_defs t = i_defs s /\
  i_err t = i_err s /\ i_errlines t = i_errlines s /\ i_warn t = i_warn s /\ i_warnlines t = i_warnlines s /\
  i_log t = i_log s /\ i_loglines t = i_loglines s /\ i_out t = i_out s /\ i_outlines t = i_outlines s /\
  i_dump t = i_dump s /\ i_dumplines t = i_dumplines s /\ i_logon t = i_logon s /\ i_outon t = i_outon s /\
  i_eng t = i_eng s /\ i_update t = i_update s /\ i_comps t = i_comps s /\ i_input t = i_input s /\ i_clear t = i_clear s /\
  i_loaded t = i_loaded s /\
  forall n, default [] (i_sellines t !! n) = default [] (i_sellines s !! n) ++
    (if decide (n ∈ l) then (if sel_on n s then lines_in (default "" (i_sels s !! n)) else []) else []).
Proof.
  induction l as [|a l IH]; intros s Hd.
  - cbn. split_and!; try done. intros n. rewrite decide_False by apply not_elem_of_nil. by rewrite app_nil_r.
  - apply NoDup_cons in Hd as [Ha Hd]. specialize (IH (line_up s a) Hd). cbn zeta in *. cbn [fold_left].
    assert (i_sels (line_up s a) = i_sels s /\ i_selon (line_up s a) = i_selon s /\ i_cur (line_up s a) = i_cur s /\
      i_defs (line_up s a) = i_defs s /\ i_err (line_up s a) = i_err s /\ i_errlines (line_up s a) = i_errlines s /\
      i_warn (line_up s a) = i_warn s /\ i_warnlines (line_up s a) = i_warnlines s /\ i_log (line_up s a) = i_log s /\
      i_loglines (line_up s a) = i_loglines s /\ i_out (line_up s a) = i_out s /\ i_outlines (line_up s a) = i_outlines s /\
      i_dump (line_up s a) = i_dump s /\ i_dumplines (line_up s a) = i_dumplines s /\ i_logon (line_up s a) = i_logon s /\
      i_outon (line_up s a) = i_outon s /\ i_eng (line_up s a) = i_eng s /\ i_update (line_up s a) = i_update s /\
      i_comps (line_up s a) = i_comps s /\ i_input (line_up s a) = i_input s /\ i_clear (line_up s a) = i_clear s /\
      i_loaded (line_up s a) = i_loaded s /\
      forall n, default [] (i_sellines (line_up s a) !! n) = default [] (i_sellines s !! n) ++
        (if decide (n = a) then (if sel_on n s then lines_in (default "" (i_sels s !! n)) else []) else [])) as Hone.
    { clear. unfold line_up, sel_on. destruct s. cbn.
      destruct (default false (i_selon !! i_cur)) eqn:Hs; [destruct (i_sels !! a) as [t|] eqn:Ht; [destruct (lines_in t) eqn:El|]|];
        cbn; (split_and!; [reflexivity..|]); intros n; case_decide as Hn; subst; rewrite ?Ht, ?app_nil_r; cbn; try done.
      - change (getlines "" t) with (lines_in t). by rewrite El, app_nil_r.
      - rewrite lookup_insert. cbn. change (getlines "" t) with (lines_in t). by rewrite El.
      - by rewrite lookup_insert_ne by done. }
    destruct Hone as (E1 & E2 & E3 & E4 & E5 & E6 & E7 & E8 & E9 & E10 & E11 & E12 & E13 & E14 & E15 & E16 & E17 & E18 & E19 & E20 & E21 & E22 & E23).
    destruct IH as (I1 & I2 & I3 & I4 & I5 & I6 & I7 & I8 & I9 & I10 & I11 & I12 & I13 & I14 & I15 & I16 & I17 & I18 & I19 & I20 & I21 & I22 & I23).
    split_and!; try congruence. intros n. rewrite I23, E23, E1, (sel_on_eq n _ _ E2 E3), <- app_assoc. f_equal.
    destruct (decide (n = a)) as [->|Hn].
    + rewrite (decide_False (P := a ∈ l)) by done. rewrite decide_True by apply elem_of_list_here. by rewrite app_nil_r.
    + cbn. destruct (decide (n ∈ l)) as [Hl|Hl].
      * rewrite decide_True by (by apply elem_of_list_further). done.
      * rewrite decide_False; [done|]. intros H. apply elem_of_cons in H as [->|H]; done.
Qed.

Definition in_step (s : inst) : Prop :=
  text_lines (i_errlines s) (i_err s) /\ text_lines (i_warnlines s) (i_warn s).
Definition lined (s : inst) : Prop :=
  text_lines (i_loglines s) (i_log s) /\ text_lines (i_outlines s) (i_out s) /\
  forall n, n ∈ i_defs s -> text_lines (default [] (i_sellines s !! n)) (default "" (i_sels s !! n)).
Lemma finish_lined s : blank s -> lined (finish s).
Proof.
  intros (H1 & H2 & H3 & H4 & H5 & H6). unfold finish. cbn zeta.
  set (s1 := update_errors (set_comps true (i_comps s) s)).
  set (s2 := if i_logon s1 then _ else s1). set (s3 := if i_outon s2 then _ else s2).
  assert (i_log s3 = i_log s /\ i_out s3 = i_out s /\ i_sels s3 = i_sels s /\ i_sellines s3 = ∅ /\ i_selon s3 = i_selon s /\
    i_cur s3 = i_cur s /\ i_defs s3 = i_defs s /\ i_loglines s3 = (if i_logon s then lines_in (i_log s) else []) /\
    i_outlines s3 = (if i_outon s then lines_in (i_out s) else [])) as (E1 & E2 & E3 & E4 & E5 & E6 & E7 & E8 & E9).
  { unfold s3, s2, s1. clear -H1 H2 H3. destruct s. cbn in *. subst. destruct i_logon, i_outon; cbn; split_and!; done. }
  destruct (line_ups (elements (i_defs s3)) s3 (NoDup_elements _))
    as (I1 & I2 & I3 & I4 & _ & _ & _ & _ & I9 & I10 & I11 & I12 & _ & _ & _ & _ & _ & _ & _ & _ & _ & _ & I23).
  split; [|split].
  - rewrite I9, I10, E8, E1. destruct (i_logon s); [apply lines_ok|rewrite H4 by done; constructor].
  - rewrite I11, I12, E9, E2. destruct (i_outon s); [apply lines_ok|rewrite H5 by done; constructor].
  - rewrite I4. intros n Hn. rewrite I1, I23, E4, lookup_empty. cbn.
    rewrite decide_True by (by apply elem_of_elements). rewrite E3, (sel_on_eq n s s3 E5 E6).
    destruct (sel_on n s) eqn:Ho; [apply lines_ok|rewrite H6 by done; constructor].
Qed.

Lemma update_in_step s : in_step (update_errors s).
Proof. destruct s. split; apply lines_ok. Qed.
Lemma update_blank s : blank s -> blank (update_errors s).
Proof. by destruct s. Qed.
Lemma update_lined s : lined s -> lined (update_errors s).
Proof. by destruct s. Qed.
Lemma run_text_ends name input s : let q := run_text g name input s in
  in_step q.1.1 /\ (q.1.2 = true -> lined q.1.1) /\
  (q.1.2 = false -> i_loglines q.1.1 = [] /\ i_outlines q.1.1 = [] /\ i_sellines q.1.1 = ∅).
Proof.
  intros q. unfold q, run_text. cbn zeta. split; [apply update_in_step|]. cbn [fst snd].
  destruct (i_loaded (clear_results s)); [destruct input as [t|]|]; cbn [fst snd].
  - unfold do_run. cbn zeta. pose proof (plays_blank (drive g (i_eng (clear_results s)) t).1 _ (clear_blank s)) as Hb.
    destruct (drive g (i_eng (clear_results s)) t).2; cbn [fst snd].
    + split; [|done]. intros _. by apply update_lined, finish_lined.
    + split; [done|]. intros _. apply update_blank in Hb. by destruct Hb as (? & ? & ? & _).
  - split; [done|]. intros _. unfold complain. cbn zeta.
    match goal with |- context [fold_left play ?es ?x] => pose proof (update_blank _ (plays_blank es x (clear_blank s))) as Hb end.
    by destruct Hb as (? & ? & ? & _).
  - split; [done|]. intros _. unfold complain. cbn zeta.
    match goal with |- context [fold_left play ?es ?x] => pose proof (update_blank _ (plays_blank es x (clear_blank s))) as Hb end.
    by destruct Hb as (? & ? & ? & _).
Qed.

(** * Dump: always in step *)
Definition dumped (s : inst) : Prop := i_dumplines s = lines_in (i_dump s).
Lemma play_dumped s e : dumped s -> dumped (play s e).
Proof. destruct s, e; unfold dumped; cbn; try done; case_match; done. Qed.
Lemma plays_dumped es : forall s, dumped s -> dumped (fold_left play es s).
Proof. induction es as [|e es IH]; intros s H; cbn; [done|]. by apply IH, play_dumped. Qed.
Lemma finish_keeps (s : inst) : i_dump (finish s) = i_dump s /\ i_dumplines (finish s) = i_dumplines s /\
  i_eng (finish s) = i_eng s /\ i_input (finish s) = i_input s /\ i_clear (finish s) = i_clear s /\
  i_loaded (finish s) = i_loaded s /\ i_update (finish s) = true /\ i_comps (finish s) = i_comps s /\
  i_sels (finish s) = i_sels s.
Proof.
  unfold finish. cbn zeta. set (s1 := update_errors (set_comps true (i_comps s) s)).
  set (s2 := if i_logon s1 then _ else s1). set (s3 := if i_outon s2 then _ else s2).
  assert (i_dump s3 = i_dump s /\ i_dumplines s3 = i_dumplines s /\
    i_eng s3 = i_eng s /\ i_input s3 = i_input s /\ i_clear s3 = i_clear s /\ i_loaded s3 = i_loaded s /\
    i_update s3 = true /\ i_comps s3 = i_comps s /\ i_sels s3 = i_sels s) as (E1 & E2 & E3 & E4 & E5 & E6 & E7 & E8 & E9).
  { unfold s3, s2, s1. clear. destruct s. cbn. destruct i_logon, i_outon; cbn; split_and!; done. }
  destruct (line_ups (elements (i_defs s3)) s3 (NoDup_elements _))
    as (I1 & I2 & I3 & I4 & _ & _ & _ & _ & I9 & I10 & I11 & I12 & I13 & I14 & _ & _ & I17 & I18 & I19 & I20 & I21 & I22 & I23).
  split_and!; congruence.
Qed.
Lemma do_run_dumped t s : dumped s -> dumped (do_run g t s).1.
Proof.
  intros H. unfold do_run. cbn zeta. pose proof (plays_dumped (drive g (i_eng s) t).1 s H) as H'.
  destruct (drive g (i_eng s) t).2; [|done]. cbn [fst]. unfold dumped in *.
  destruct (finish_keeps (fold_left play (drive g (i_eng s) t).1 s)) as (-> & -> & _). done.
Qed.
Lemma clear_dumped s : dumped s -> dumped (clear_results s).
Proof. by destruct s. Qed.
Lemma update_dumped s : dumped s -> dumped (update_errors s).
Proof. by destruct s. Qed.
Lemma run_text_dumped name input s : dumped s -> dumped (run_text g name input s).1.1.
Proof.
  intros H%clear_dumped. unfold run_text. cbn zeta. cbn [fst snd]. apply update_dumped.
  destruct (i_loaded (clear_results s)); [destruct input as [t|]|]; cbn [fst snd].
  - by apply do_run_dumped.
  - by apply plays_dumped.
  - by apply plays_dumped.
Qed.
Lemma input_dumped c t s : dumped s -> dumped (set_input c t s).
Proof. by destruct s. Qed.
Lemma step_dumped s o : dumped s -> dumped (step g s o).1.1.
Proof.
  intros H. destruct o; cbn [step fst snd]; try (by destruct s).
  - by apply input_dumped, run_text_dumped.
  - by apply run_text_dumped, input_dumped.
  - by apply run_text_dumped, input_dumped.
  - assert (dumped (unload g s)) as Hu by (by destruct s).
    assert (forall b s', dumped s' -> dumped (set_loaded b s')) as Hl by (by intros b []).
    destruct db as [t|]; cbn zeta.
    + pose proof (plays_dumped (read_db g t).1 _ Hu) as Hp. cbn [fst snd].
      destruct (read_db g t).2; cbn [fst snd]; [|by apply Hl]. by apply run_text_dumped, input_dumped, Hl.
    + cbn [fst snd]. apply Hl. by apply plays_dumped.
  - destruct s, bad; done.
  - destruct s. cbn. by case_match.
  - destruct s. cbn. by case_match.
Qed.
Lemma after_snoc h o : after g (h ++ [o]) = (step g (after g h) o).1.1.
Proof. unfold after. by rewrite fold_left_app. Qed.
Lemma after_dumped h : dumped (after g h).
Proof.
  induction h as [|o h IH] using rev_ind; [done|]. rewrite after_snoc. by apply step_dumped.
Qed.

(** * Components *)
Definition current (s : inst) : Prop := i_update s = false -> i_comps s = components g (i_eng s).
Lemma run_text_update name input s : let q := run_text g name input s in
  (q.1.2 = true -> i_update q.1.1 = true) /\ i_comps q.1.1 = i_comps s /\ (q.1.2 = false -> i_update q.1.1 = i_update s) /\
  (i_loaded q.1.1 = i_loaded s) /\ i_input q.1.1 = i_input s /\ i_clear q.1.1 = i_clear s /\
  q.2 = match input with Some t => if i_loaded s then [t] else [] | None => [] end.
Proof.
  intros q. unfold q, run_text. cbn zeta. cbn [fst snd].
  assert (i_loaded (clear_results s) = i_loaded s) as El by (by destruct s). rewrite El.
  assert (i_update (clear_results s) = i_update s /\ i_comps (clear_results s) = i_comps s /\ i_input (clear_results s) = i_input s /\
    i_clear (clear_results s) = i_clear s) as (Eu & Ec & Ei & Ek) by (by destruct s).
  assert (forall t : inst, i_update (update_errors t) = i_update t /\ i_comps (update_errors t) = i_comps t /\
    i_loaded (update_errors t) = i_loaded t /\ i_input (update_errors t) = i_input t /\ i_clear (update_errors t) = i_clear t) as Hu by (by intros []).
  destruct (i_loaded s) eqn:Hl; [destruct input as [t|]|]; cbn [fst snd].
  - unfold do_run. cbn zeta. set (es := (drive g (i_eng (clear_results s)) t).1).
    destruct (plays_flags es (clear_results s)) as (_ & _ & _ & _ & _ & F6 & F7 & F8 & F9 & F10 & _).
    destruct (finish_keeps (fold_left play es (clear_results s))) as (_ & _ & _ & K4 & K5 & K6 & K7 & K8 & _).
    destruct (drive g (i_eng (clear_results s)) t).2; cbn [fst snd]; destruct (Hu (finish (fold_left play es (clear_results s)))) as (U1 & U2 & U3 & U4 & U5);
      destruct (Hu (fold_left play es (clear_results s))) as (V1 & V2 & V3 & V4 & V5); split_and!; (done || congruence).
  - unfold complain. cbn zeta. match goal with |- context [fold_left play ?es ?x] => destruct (plays_flags es x) as (_ & _ & _ & _ & _ & F6 & F7 & F8 & F9 & F10 & _);
      destruct (Hu (fold_left play es x)) as (V1 & V2 & V3 & V4 & V5) end. split_and!; (done || congruence).
  - unfold complain. cbn zeta. match goal with |- context [fold_left play ?es ?x] => destruct (plays_flags es x) as (_ & _ & _ & _ & _ & F6 & F7 & F8 & F9 & F10 & _);
      destruct (Hu (fold_left play es x)) as (V1 & V2 & V3 & V4 & V5) end. split_and!; [done|congruence..|by destruct input].
Qed.
Lemma step_current s o : current s -> (is_run o -> (step g s o).1.2 = true \/ i_eng (step g s o).1.1 = i_eng s) ->
  current (step g s o).1.1.
Proof.
  intros H Hr.
  assert (forall name input s', current s' -> (run_text g name input s').1.2 = true \/ i_eng (run_text g name input s').1.1 = i_eng s' ->
    current (run_text g name input s').1.1) as Hrun.
  { intros name input s' Hc Hd. destruct (run_text_update name input s') as (R1 & R2 & R3 & _).
    destruct (run_text g name input s').1.2 eqn:Eb.
    - intros Hf. rewrite R1 in Hf by done. done.
    - destruct Hd as [Hd|Hd]; [done|]. intros Hf. rewrite R3 in Hf by done. rewrite R2, Hd. by apply Hc. }
  assert (forall c t s', current s' -> current (set_input c t s')) as Hin by (by intros c t []).
  assert (forall c t s', i_eng (set_input (E := E) c t s') = i_eng s') as He by (by intros c t []).
  destruct o; cbn [step fst snd] in *; try (by destruct s).
  - apply Hin. apply Hrun; [done|]. rewrite He in Hr. by apply Hr.
  - apply Hrun; [by apply Hin|]. rewrite He. by apply Hr.
  - apply Hrun; [by apply Hin|]. rewrite He. by apply Hr.
  - assert (forall b s', current s' -> current (set_loaded b s')) as Hl by (by intros b []).
    assert (forall es, i_update (fold_left play es (unload g s)) = true) as Hu.
    { intros es. destruct (plays_flags es (unload g s)) as (_ & _ & _ & _ & _ & _ & _ & _ & F9 & _). rewrite F9. by destruct s. }
    destruct db as [t|]; cbn zeta.
    + cbn [fst snd]. destruct (read_db g t).2; cbn [fst snd].
      * match goal with |- current (run_text g ?n ?i ?x).1.1 => destruct (run_text_update n i x) as (R1 & R2 & R3 & _);
          destruct (run_text g n i x).1.2 eqn:Eb end.
        -- intros Hf. by rewrite R1 in Hf.
        -- intros Hf. rewrite R3 in Hf by done. exfalso. specialize (Hu (read_db g t).1).
           destruct (fold_left play (read_db g t).1 (unload g s)). cbn in *. congruence.
      * intros Hf. exfalso. specialize (Hu (read_db g t).1). destruct (fold_left play (read_db g t).1 (unload g s)). cbn in *. congruence.
    + cbn [fst snd]. intros Hf. exfalso. unfold complain in Hf. cbn zeta in Hf.
      match type of Hf with context [fold_left play ?es ?x] => specialize (Hu es); destruct (fold_left play es x) end. cbn in *. congruence.
  - destruct s, bad; done.
  - destruct s. unfold current in *. cbn in *. destruct i_update; cbn; [done|]. intros _. by apply H.
  - destruct s. cbn. by case_match.
Qed.

(** * Input *)
Lemma step_input s o : i_input (step g s o).1.1 =
    match o with
    | Accumulate l => ((if i_clear s then "" else i_input s) +:+ l +:+ nl)%string
    | ClearLines | RunStr _ | RunFil _ | LoadDb _ => ""
    | _ => i_input s
    end /\
  i_clear (step g s o).1.1 =
    match o with Accumulate _ | RunStr _ | RunFil _ | LoadDb _ => false | RunAcc => true | _ => i_clear s end.
Proof.
  assert (forall c t s', i_input (set_input (E := E) c t s') = t /\ i_clear (set_input c t s') = c) as Hi by (by intros c t []).
  destruct o; cbn [step fst snd]; try (by destruct s).
  - destruct (run_text_update "RunAccumulated" (Some (i_input s)) s) as (_ & _ & _ & _ & R5 & _).
    destruct (Hi true (i_input (run_text g "RunAccumulated" (Some (i_input s)) s).1.1) (run_text g "RunAccumulated" (Some (i_input s)) s).1.1) as [-> ->]. done.
  - destruct (run_text_update "RunString" (Some t) (set_input false "" s)) as (_ & _ & _ & _ & -> & -> & _). apply Hi.
  - destruct (run_text_update "RunFile" t (set_input false "" s)) as (_ & _ & _ & _ & -> & -> & _). apply Hi.
  - assert (forall es, i_input (fold_left play es (unload g s)) = "" /\ i_clear (fold_left play es (unload g s)) = false) as Hu.
    { intros es. destruct (plays_flags es (unload g s)) as (_ & _ & _ & _ & _ & _ & F7 & F8 & _). rewrite F7, F8. by destruct s. }
    assert (forall b s', i_input (set_loaded (E := E) b s') = i_input s' /\ i_clear (set_loaded b s') = i_clear s') as Hl by (by intros b []).
    destruct db as [t|]; cbn zeta; cbn [fst snd].
    + destruct (read_db g t).2; cbn [fst snd].
      * match goal with |- context [run_text g ?n ?i ?x] => destruct (run_text_update n i x) as (_ & _ & _ & _ & -> & -> & _) end. apply Hi.
      * match goal with |- context [set_loaded ?b ?x] => destruct (Hl b x) as [-> ->] end. apply Hu.
    + unfold complain. cbn zeta. match goal with |- context [set_loaded ?b ?x] => destruct (Hl b x) as [-> ->] end. apply Hu.
  - by destruct s, bad.
  - destruct s. cbn. by case_match.
  - destruct s. cbn. by case_match.
Qed.
End Proofs.

Lemma accumulated_app a b : accumulated (a ++ b) = (accumulated a +:+ accumulated b)%string.
Proof.
  induction a as [|o a IH]; cbn [app accumulated]; [done|]. destruct o; try exact IH.
  rewrite IH. rewrite <- app_assoc_s. done.
Qed.
Lemma accumulated_none a : Forall (fun o => ~ accumulates o) a -> accumulated a = "".
Proof. induction 1 as [|o a H _ IH]; [done|]. by destruct o; cbn in *. Qed.

Global Instance op_eq_dec : EqDecision op.
Proof. solve_decision. Defined.
(** the last RunAccumulated *)
Lemma last_run (l : list op) : RunAcc ∈ l -> exists a b, l = a ++ RunAcc :: b /\ RunAcc ∉ b.
Proof.
  induction l as [|o l IH] using rev_ind; intros H; [by apply elem_of_nil in H|].
  destruct (decide (o = RunAcc)) as [->|Hn].
  - exists l, []. split; [done|apply not_elem_of_nil].
  - apply elem_of_app in H as [H|H]; [|by apply elem_of_list_singleton in H].
    destruct (IH H) as (a & b & -> & Hb). exists a, (b ++ [o]). split; [by rewrite <- app_assoc|].
    intros [H'|H']%elem_of_app; [done|]. apply elem_of_list_singleton in H'. done.
Qed.

Lemma current_part_unique h m1 m2 : current_part h m1 -> current_part h m2 -> m1 = m2.
Proof.
  assert (forall x p1 p2 m1 m2, p2 = p1 ++ x -> m1 = x ++ m2 -> Forall (fun o => ~ resets o) m1 ->
    (forall a b, m1 = a ++ RunAcc :: b -> Forall (fun o => ~ accumulates o) b) ->
    (p2 = [] \/ exists p o, p2 = p ++ [o] /\ (resets o \/ o = RunAcc /\ Exists accumulates m2)) -> m1 = m2) as Hw.
  { intros x p1 p2 n1 n2 -> -> Hr Ha [He|(p & o & He & Hd)].
    - apply app_eq_nil in He as [_ ->]. done.
    - destruct x as [|y x _] using rev_ind; [done|]. exfalso. rewrite app_assoc in He. apply app_inj_tail in He as [_ ->].
      destruct Hd as [Hd|[-> Hd]].
      + rewrite Forall_forall in Hr. apply (Hr o); [|done]. apply elem_of_app. left. apply elem_of_app. right. by apply elem_of_list_singleton.
      + assert (Forall (fun o => ~ accumulates o) n2) as Hn by (apply (Ha x n2); by rewrite <- app_assoc).
        apply Exists_exists in Hd as (z & Hz & Hzz). rewrite Forall_forall in Hn. by apply (Hn z). }
  intros (p1 & E1 & R1 & A1 & S1) (p2 & E2 & R2 & A2 & S2).
  destruct (le_lt_dec (length p1) (length p2)) as [Hl|Hl].
  - assert (p2 = p1 ++ drop (length p1) p2) as Hx.
    { rewrite <- (take_drop (length p1) p2) at 1. f_equal. replace p1 with (take (length p1) h) at 2.
      - rewrite E2. by rewrite take_app_le.
      - rewrite E1. by rewrite take_app. }
    eapply (Hw _ p1 p2 m1 m2 Hx); try done. rewrite E2, Hx in E1. rewrite <- app_assoc in E1. by apply app_inv_head in E1.
  - assert (p1 = p2 ++ drop (length p2) p1) as Hx.
    { rewrite <- (take_drop (length p2) p1) at 1. f_equal. replace p2 with (take (length p2) h) at 2.
      - rewrite E1. by rewrite take_app_le by lia.
      - rewrite E2. by rewrite take_app. }
    symmetry. eapply (Hw _ p2 p1 m2 m1 Hx); try done. rewrite E1, Hx in E2. rewrite <- app_assoc in E2. by apply app_inv_head in E2.
Qed.

Lemma current_part_inv {E} (g : engine E) h : exists mid, current_part h mid /\ i_input (after g h) = accumulated mid /\
  (i_clear (after g h) = true -> RunAcc ∈ mid \/ accumulated mid = "") /\ (RunAcc ∈ mid -> i_clear (after g h) = true).
Proof.
  induction h as [|o h (mid & Hp & Hi & Hc & Hd)] using rev_ind.
  - exists []. split; [|split_and!; try done; by intros ?%elem_of_nil].
    exists []. split_and!; try done; [|by left]. intros [] ?; done.
  - rewrite after_snoc. destruct (step_input g (after g h) o) as [I1 I2]. rewrite I1, I2.
    assert (resets o \/ o = RunAcc \/ accumulates o \/ (~ resets o /\ ~ accumulates o /\ o <> RunAcc)) as [Ho|[->|[Ho|Ho]]].
    { destruct o; cbn; auto; right; right; right; split_and!; auto. }
    + exists []. split.
      * exists (h ++ [o]). split_and!; [by rewrite app_nil_r|done|intros [] ?; done|]. right. exists h, o. auto.
      * split; [destruct o; try done|]. split; [|by intros ?%elem_of_nil]. by right.
    + exists (mid ++ [RunAcc]). split.
      * destruct Hp as (pre & -> & Hr & Ha & Hs). exists pre. split_and!.
        -- by rewrite app_assoc.
        -- apply Forall_app. split; [done|]. constructor; [|done]. by intros [].
        -- intros m1 m2 Em. destruct m2 as [|y m2 _] using rev_ind; [done|].
           rewrite app_comm_cons, app_assoc in Em. apply app_inj_tail in Em as [Em <-]. apply Forall_app. split; [by apply (Ha m1)|].
           constructor; [|done]. by intros [].
        -- destruct Hs as [Hs|(p & o & Hs & Hx)]; [by left|]. right. exists p, o. split; [done|]. destruct Hx as [Hx|[Hx Hy]]; [by left|].
           right. split; [done|]. apply Exists_app. by left.
      * rewrite accumulated_app. cbn [accumulated]. rewrite app_nil_s. split_and!; try done. intros _. left. apply elem_of_app. right. by apply elem_of_list_singleton.
    + destruct o as [l| | | | | | | | | | | | | | | | ]; try done. clear Ho.
      destruct (decide (RunAcc ∈ mid)) as [Hin|Hin].
      * destruct (last_run mid Hin) as (a & b & -> & Hb). exists (b ++ [Accumulate l]).
        destruct Hp as (pre & -> & Hr & Ha & Hs). pose proof (Ha a b eq_refl) as Hn. split.
        -- exists (pre ++ a ++ [RunAcc]). split_and!.
           ++ by rewrite <- !app_assoc.
           ++ apply Forall_app. split; [|constructor; [|done]; by intros []]. apply Forall_app in Hr as [_ Hr]. by apply Forall_cons in Hr as [_ Hr].
           ++ intros m1 m2 Em. exfalso. assert (RunAcc ∈ b ++ [Accumulate l]) as Hx.
              { rewrite Em. apply elem_of_app. right. apply elem_of_list_here. }
              apply elem_of_app in Hx as [Hx|Hx]; [done|]. by apply elem_of_list_singleton in Hx.
           ++ right. exists (pre ++ a), RunAcc. split; [by rewrite app_assoc|]. right. split; [done|].
              apply Exists_app. right. by constructor.
        -- rewrite (Hd Hin), accumulated_app, (accumulated_none b) by done. split_and!; try done.
           intros Hx. apply elem_of_app in Hx as [Hx|Hx]; [done|]. by apply elem_of_list_singleton in Hx.
      * exists (mid ++ [Accumulate l]). destruct Hp as (pre & -> & Hr & Ha & Hs). split.
        -- exists pre. split_and!.
           ++ by rewrite app_assoc.
           ++ apply Forall_app. split; [done|]. constructor; [|done]. by intros [].
           ++ intros m1 m2 Em. exfalso. assert (RunAcc ∈ mid ++ [Accumulate l]) as Hx.
              { rewrite Em. apply elem_of_app. right. apply elem_of_list_here. }
              apply elem_of_app in Hx as [Hx|Hx]; [done|]. by apply elem_of_list_singleton in Hx.
           ++ destruct Hs as [Hs|(p & o & Hs & Hx)]; [by left|]. right. exists p, o. split; [done|]. destruct Hx as [Hx|[Hx Hy]]; [by left|].
              right. split; [done|]. apply Exists_app. by left.
        -- rewrite accumulated_app. cbn [accumulated]. split_and!.
           ++ rewrite Hi. destruct (i_clear (after g (pre ++ mid))); [|done]. by destruct (Hc eq_refl) as [?| ->].
           ++ done.
           ++ intros Hx. apply elem_of_app in Hx as [Hx|Hx]; [done|]. by apply elem_of_list_singleton in Hx.
    + destruct Ho as (Ho1 & Ho2 & Ho3). exists (mid ++ [o]).
      assert (accumulated (mid ++ [o]) = accumulated mid) as Eo.
      { rewrite accumulated_app. replace (accumulated [o]) with ""; [apply app_nil_s|]. by destruct o. }
      rewrite Eo. split; [|split_and!].
      * destruct Hp as (pre & -> & Hr & Ha & Hs). exists pre. split_and!.
        -- by rewrite app_assoc.
        -- apply Forall_app. split; [done|]. by constructor.
        -- intros m1 m2 Em. destruct m2 as [|y m2 _] using rev_ind; [done|].
           rewrite app_comm_cons, app_assoc in Em. apply app_inj_tail in Em as [Em <-]. apply Forall_app. split; [by apply (Ha m1)|]. by constructor.
        -- destruct Hs as [Hs|(p & o' & Hs & Hx)]; [by left|]. right. exists p, o'. split; [done|]. destruct Hx as [Hx|[Hx Hy]]; [by left|].
           right. split; [done|]. apply Exists_app. by left.
      * by destruct o.
      * intros Hx. destruct Hc as [Hc|Hc]; [by destruct o|left; apply elem_of_app; by left|by right].
      * intros Hx. apply elem_of_app in Hx as [Hx|Hx]; [|by apply elem_of_list_singleton in Hx]. specialize (Hd Hx). by destruct o.
Qed.

(** * What is punched *)
Lemma plays_punched {E} (es : list (ev E)) : forall s n,
  default "" (i_sels (fold_left play es s) !! n) =
  (default "" (i_sels s !! n) +:+ (if sel_on n s then punched n es else ""))%string.
Proof.
  induction es as [|e es IH]; intros s n.
  - cbn [fold_left punched]. by destruct (sel_on n s); rewrite app_nil_s.
  - cbn [fold_left]. rewrite IH. destruct (play_flags e s) as (_ & _ & _ & F4 & F5 & _). rewrite (sel_on_eq n s (play s e) F4 F5).
    destruct e; cbn [punched]; try (destruct s; cbn; done); try (destruct s; cbn; case_match; done).
    + clear IH F4 F5. cbn [play]. change (sel_on n0 s) with (sel_on n s). destruct (sel_on n s).
      * destruct s. cbn. case_decide as Hn; subst.
        -- rewrite lookup_insert. cbn. by rewrite <- app_assoc_s.
        -- by rewrite lookup_insert_ne.
      * done.
    + clear IH F4 F5. f_equal. destruct s. cbn. apply begin_lookup.
Qed.
