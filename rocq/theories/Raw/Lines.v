(** Lemmas about the readers of [Raw.Model] that do not depend on the class. *)
From Coq Require Import Ascii String Sorting.Sorted.
From stdpp Require Import prelude strings gmap.
From Verif.Names Require Import Model Spec Proofs.
From Verif.Reactant Require Import Model.
From Verif.Transfer Require Import Model Proofs.
From Verif.Raw Require Import Fields Model Spec.

(** ** Words *)

Lemma low_lower c : low c = to_lower c.
Proof.
  unfold low, to_lower. destruct (Nat.leb_spec 65 (nat_of_ascii c)), (Nat.leb_spec (nat_of_ascii c) 90); simpl;
    case_decide; lia || done.
Qed.
Lemma lows_lowered s : lows s = lowered s.
Proof. induction s as [|c s IH]; simpl; [done|]. by rewrite low_lower, IH. Qed.

Lemma blank_space c : blank c = true <-> space c.
Proof.
  unfold blank, space. rewrite orb_true_iff, andb_true_iff, !bool_decide_eq_true.
  assert (nat_of_ascii c = 32 <-> c = " "%char) as ->; [|tauto].
  split; [|by intros ->]. intros H. rewrite <- (ascii_nat_embedding c), H. done.
Qed.

Lemma string_app_assoc (a b c : string) : ((a ++ b) ++ c)%string = (a ++ b ++ c)%string.
Proof. induction a as [|x a IH]; [done|]. exact (f_equal (String x) IH). Qed.
Lemma string_app_nil (a : string) : (a ++ "")%string = a.
Proof. induction a as [|x a IH]; [done|]. exact (f_equal (String x) IH). Qed.

Lemma words_from_word w s : no_space s -> (w ++ s)%string <> EmptyString -> words_from w s = [(w ++ s)%string].
Proof.
  revert w. induction s as [|c s IH]; intros w Hs Hw; cbn [words_from].
  - rewrite string_app_nil in *. by rewrite decide_False.
  - destruct Hs as [Hc Hs]. destruct (blank c) eqn:E; [by apply blank_space in E|].
    assert ((w ++ String c s)%string = ((w ++ String c EmptyString) ++ s)%string) as Ew.
    { by rewrite string_app_assoc. }
    rewrite Ew in *. by apply IH.
Qed.
Lemma words_word s : word s -> words s = [s].
Proof. intros [H1 H2]. unfold words. rewrite words_from_word; done. Qed.

Lemma letter_low c : letter c = true <-> 97 <= nat_of_ascii (low c) <= 122.
Proof.
  unfold letter, low. rewrite orb_true_iff, !andb_true_iff, !bool_decide_eq_true.
  case_decide as H; [|lia]. rewrite nat_ascii_embedding by lia. lia.
Qed.
Lemma dashed_like s : ~ like_option s -> dashed s = None.
Proof.
  intros H. destruct s as [|d [|c s]]; cbn [dashed]; [done..|].
  destruct (Ascii.eqb_spec d "-") as [->|Hd]; [|done].
  destruct (letter c) eqn:E; [|done]. exfalso. apply H. cbn [like_option]. split; [done|by apply letter_low].
Qed.
Lemma find_exact_none s l i : s ∉ l -> find_option true s l i = None.
Proof.
  revert i. induction l as [|o l IH]; intros i H; cbn [find_option]; [done|].
  apply not_elem_of_cons in H as [H1 H2]. destruct (String.eqb_spec o s) as [->|_]; [done|by apply IH].
Qed.

Lemma trim_stripped s : stripped s (trim_left s).
Proof.
  induction s as [|c s (b & E & H1 & H2)]; cbn [trim_left].
  - exists EmptyString. split; [done|]. split; [intros []|]. intros [|i] c; cbn; congruence.
  - destruct (blank c) eqn:Ec.
    + exists (String c b). split; [exact (f_equal (String c) E)|]. split; [done|].
      intros [|i] d; cbn; [|by apply H2]. intros [= <-]. by apply blank_space.
    + exists EmptyString. split; [done|]. split; [|intros [|i] d; cbn; congruence].
      cbn. intros H. apply blank_space in H. congruence.
Qed.

(** ** Sorting *)

Lemma nd_set_perm {V} (m : nmap V) k v : ordered m -> (forall w, (k, w) ∉ m) -> nd_set k v m ≡ₚ (k, v) :: m.
Proof.
  induction m as [|[n w] m IH]; intros Ho Hk; cbn [nd_set]; [done|].
  apply ordered_cons in Ho as [Ho Hb]. destruct (scmp_spec k n) as [H|H|H]; [done| |].
  - subst. exfalso. apply (Hk w). by left.
  - rewrite IH; [by rewrite Permutation_swap|done|]. intros u Hu. apply (Hk u). by right.
Qed.
Lemma sort_fold {A} (name : A -> string) (l : list A) (m : nmap A) :
  ordered m -> Forall (fun p => p.1 = name p.2) m -> NoDup (m.*1 ++ (name <$> l)) ->
  let r := fold_left (fun m c => nd_set (name c) c m) l m in
  ordered r /\ Forall (fun p => p.1 = name p.2) r /\ r.*2 ≡ₚ m.*2 ++ l.
Proof.
  revert m. induction l as [|x l IH]; intros m Ho Hf Hn; cbn [fold_left].
  { by rewrite app_nil_r. }
  assert (forall w, (name x, w) ∉ m) as Hx.
  { intros w Hw. rewrite fmap_cons in Hn. apply NoDup_app in Hn as (_ & Hn & _). apply (Hn (name x)); [|by left].
    apply elem_of_list_fmap. by exists (name x, w). }
  pose proof (nd_set_perm m (name x) x Ho Hx) as Hp.
  destruct (IH (nd_set (name x) x m)) as (H1 & H2 & H3).
  - by apply nd_set_ordered.
  - rewrite Hp. by constructor.
  - rewrite Hp. rewrite fmap_cons in *. cbn. revert Hn. rewrite !NoDup_cons. intros Hn.
    rewrite NoDup_app in Hn. destruct Hn as (N1 & N2 & N3). apply NoDup_cons in N3 as [N3 N4].
    split.
    + rewrite not_elem_of_app. split; [|done]. intros H. apply (N2 _ H). by left.
    + apply NoDup_app. split; [done|]. split; [|done]. intros y Hy Hz. apply (N2 y Hy). by right.
  - split; [done|]. split; [done|]. rewrite H3, Hp. rewrite fmap_cons. cbn. by rewrite Permutation_middle.
Qed.
Lemma sort_by_sorted {A} (name : A -> string) (l : list A) :
  NoDup (name <$> l) -> sorted_by name l (sort_by name l).
Proof.
  intros Hn. unfold sort_by. destruct (sort_fold name l [] ordered_nil) as (H1 & H2 & H3); [constructor|done|].
  revert H1 H2 H3. generalize (fold_left (fun m c => nd_set (name c) c m) l []). intros r H1 H2 H3.
  split; [by rewrite H3|]. clear H3 Hn.
  induction r as [|[k v] r IH]; [constructor|]. apply ordered_cons in H1 as [Ho Hb].
  apply Forall_cons in H2 as [Hk H2]. cbn in Hk. subst k. rewrite fmap_cons. constructor; [by apply IH|].
  apply Forall_forall. intros w Hw. apply elem_of_list_fmap in Hw as ([k u] & -> & Hw). cbn.
  rewrite Forall_forall in H2. pose proof (H2 _ Hw) as Ek. cbn in Ek. subst k. by apply (Hb _ u).
Qed.

(** ** Lines *)

Section Lines.
Context {D : Type} (lit : string -> D) (rnd : D -> D).
Notation tok := (@tok D).
Notation cls := (@cls D).

Fixpoint steps {S} (f : S -> list tok -> option S) (s : S) (ls : list (list tok)) : option S :=
  match ls with
  | [] => Some s
  | l :: ls' => if decide (l = []) then steps f s ls' else f s l ≫= fun s' => steps f s' ls'
  end.
Lemma steps_run {S} (f : S -> list tok -> option S) s ls s' : steps f s ls = Some s' -> run f s ls = (s', []).
Proof.
  revert s. induction ls as [|l ls IH]; intros s; cbn [steps run]; [by intros [= ->]|].
  case_decide; [apply IH|]. destruct (f s l) as [t|]; [apply IH|done].
Qed.
Lemma steps_app {S} (f : S -> list tok -> option S) s a b :
  steps f s (a ++ b) = steps f s a ≫= fun s' => steps f s' b.
Proof.
  revert s. induction a as [|l a IH]; intros s; cbn [steps app]; [done|].
  case_decide; [apply IH|]. destruct (f s l) as [t|]; cbn; [apply IH|done].
Qed.
Lemma steps_cons {S} (f : S -> list tok -> option S) s l ls : l <> [] ->
  steps f s (l :: ls) = f s l ≫= fun s' => steps f s' ls.
Proof. intros H. cbn [steps]. by rewrite decide_False. Qed.

(** the option that a dashed name is taken for *)
Definition dash_code (opts : list string) (o : string) : code :=
  if keyword ("-" ++ o) then Key
  else match dashed ("-" ++ o) with
       | Some o' => match find_option false (lowered o') opts 0 with Some i => Opt i | None => Unknown end
       | None => Plain
       end.
Lemma get_option_opt opts o args i : dash_code opts o = Opt i ->
  get_option (D := D) opts (opt o args) = (Opt i, args).
Proof.
  unfold dash_code, opt, get_option. destruct (keyword _); [done|]. destruct (dashed _) as [o'|]; [|done].
  destruct (find_option _ _ _ _) as [j|]; [|done]. by intros [= ->].
Qed.
Lemma get_option_unknown opts o args : dash_code opts o = Unknown ->
  get_option (D := D) opts (opt o args) = (Unknown, opt o args).
Proof.
  unfold dash_code, opt, get_option. destruct (keyword _); [done|]. destruct (dashed _) as [o'|]; [|done].
  by destruct (find_option _ _ _ _) as [j|].
Qed.
Lemma get_option_plain opts s args : plain_name keywords opts s ->
  get_option (D := D) opts (W s :: args) = (Plain, W s :: args).
Proof.
  intros (Hw & Hl & Hk & Ho). rewrite lows_lowered in *. unfold get_option, keyword.
  destruct (existsb _ keywords) eqn:E.
  { exfalso. apply Hk. apply existsb_exists in E as (k & H1 & H2). apply String.eqb_eq in H2.
    rewrite H2. by apply elem_of_list_In. }
  rewrite dashed_like by done. by rewrite find_exact_none.
Qed.

Lemma own_opt {A} (c : cls A) s o args i : dash_code (c_opts c) o = Opt i ->
  own_line c s (opt o args) = Some (act c i args s).
Proof. intros H. unfold own_line. by rewrite (get_option_opt _ _ _ _ H). Qed.
Lemma own_unknown {A} (c : cls A) s o args : dash_code (c_opts c) o = Unknown -> own_line c s (opt o args) = None.
Proof. intros H. unfold own_line. by rewrite (get_option_unknown _ _ _ H). Qed.
Lemma own_steps_opt {A} (c : cls A) s o args ls i : dash_code (c_opts c) o = Opt i ->
  steps (own_line c) s (opt o args :: ls) = steps (own_line c) (act c i args s) ls.
Proof. intros H. rewrite steps_cons by done. by rewrite (own_opt c s o args i H). Qed.

Lemma own_plain {A} (c : cls A) y i seen e l x' k : get_option (c_opts c) l = (Plain, l) ->
  c_act c i l y = (x', 0, k) -> k = Save -> existsb (Nat.eqb i) seen = true ->
  own_line c (OS y (Some i) seen e) l = Some (OS x' (Some i) seen e).
Proof.
  intros H1 H2 -> H3. unfold own_line. rewrite H1. cbn [o_save]. unfold act. cbn [o_val o_seen o_err o_save].
  rewrite H2. unfold saw. by rewrite H3, Nat.add_0_r.
Qed.
Lemma saw_in i l : existsb (Nat.eqb i) l = true -> saw i l = l.
Proof. unfold saw. by intros ->. Qed.

(** a list of names read as [opt_save] *)
Lemma own_names {A} (c : cls A) i get set (l : nmap D) x seen e :
  (forall a y, c_act c i a y = saved (a_names get set a y)) ->
  (forall v y, get (set v y) = v) -> (forall y, set (get y) y = y) -> (forall v w y, set v (set w y) = set v y) ->
  existsb (Nat.eqb i) seen = true -> get x = [] -> plain_names keywords (c_opts c) l ->
  steps (own_line c) (OS x (Some i) seen e) (names_lines rnd l) = Some (OS (set (rnds rnd l) x) (Some i) seen e).
Proof.
  intros Hact Hgs Hsg Hss Hseen Hx [Ho Hp].
  assert (forall acc y, get y = acc -> (forall p q, p ∈ acc -> q ∈ l -> before p.1 q.1) ->
    steps (own_line c) (OS y (Some i) seen e) (names_lines rnd l)
    = Some (OS (set (acc ++ rnds rnd l) y) (Some i) seen e)) as H.
  { clear Hx x. induction l as [|[n v] l IH]; intros acc y Hy Hb; cbn [names_lines rnds fmap list_fmap].
    { cbn [steps]. rewrite app_nil_r, <- Hy. by rewrite Hsg. }
    pose proof (Hp n v (elem_of_list_here _ _)) as Hn. cbn [fst snd].
    assert (ws n = [@W D n]) as -> by (unfold ws; by rewrite words_word by apply Hn).
    cbn [app]. rewrite steps_cons by done. erewrite own_plain; [|by apply get_option_plain|by rewrite Hact|done|done].
    cbn [mbind option_bind].
    apply ordered_cons in Ho as [Ho Hb2].
    assert (nd_set n (rnd v) (get y) = acc ++ [(n, rnd v)]) as En.
    { rewrite Hy. assert (forall p, p ∈ acc -> before p.1 n) as Ha.
      { intros p Hpp. apply (Hb p (n, v)); [done|by left]. }
      clear -Ha. induction acc as [|[m w] acc IH]; cbn [nd_set app]; [done|].
      destruct (scmp_spec n m) as [H|H|H].
      - exfalso. eapply before_asym; [apply H|]. apply (Ha (m, w)). by left.
      - subst. exfalso. eapply before_irrefl, (Ha (m, w)). by left.
      - f_equal. apply IH. intros p Hp. apply Ha. by right. }
    rewrite En. rewrite (IH Ho) with (acc := acc ++ [(n, rnd v)]).
    - rewrite Hss. by rewrite <- app_assoc.
    - intros m w Hm. apply (Hp m w). by right.
    - apply Hgs.
    - intros p q Hpp Hq. apply elem_of_app in Hpp as [Hpp|Hpp]; [apply Hb; [done|by right]|].
      apply elem_of_list_singleton in Hpp as ->. destruct q as [m w]. by apply (Hb2 m w). }
  rewrite (H [] x Hx); [done|]. by intros p q ?%elem_of_nil.
Qed.

(** a map from numbers *)
Lemma own_imap {A} (c : cls A) i get set (l : list (Z * D)) x seen e :
  (forall a y, c_act c i a y = saved (a_imap get set a y)) ->
  (forall v y, get (set v y) = v) -> (forall y, set (get y) y = y) -> (forall v w y, set v (set w y) = set v y) ->
  existsb (Nat.eqb i) seen = true -> get x = [] -> rising l ->
  steps (own_line c) (OS x (Some i) seen e) (imap_lines rnd l) = Some (OS (set (irnds rnd l) x) (Some i) seen e).
Proof.
  intros Hact Hgs Hsg Hss Hseen Hx Ho.
  assert (forall acc y, get y = acc -> (forall p q, p ∈ acc -> q ∈ l -> (p.1 < q.1)%Z) ->
    steps (own_line c) (OS y (Some i) seen e) (imap_lines rnd l)
    = Some (OS (set (acc ++ irnds rnd l) y) (Some i) seen e)) as H.
  { clear Hx x. induction l as [|[n v] l IH]; intros acc y Hy Hb; cbn [imap_lines irnds fmap list_fmap].
    { cbn [steps]. rewrite app_nil_r, <- Hy. by rewrite Hsg. }
    rewrite steps_cons by done. erewrite own_plain; [|done|by rewrite Hact|done|done].
    cbn [mbind option_bind fst snd].
    apply StronglySorted_inv in Ho as [Ho Hb2]. rewrite Forall_forall in Hb2.
    rewrite kset_last.
    2: { intros p Hp. rewrite Hy in Hp. apply Z.compare_gt_iff. apply (Hb p (n, v)); [done|by left]. }
    rewrite (IH Ho) with (acc := acc ++ [(n, rnd v)]).
    - rewrite Hss. by rewrite <- app_assoc.
    - by rewrite Hgs, Hy.
    - intros p q Hpp Hq. apply elem_of_app in Hpp as [Hpp|Hpp]; [apply Hb; [done|by right]|].
      apply elem_of_list_singleton in Hpp as ->. by apply Hb2. }
  rewrite (H [] x Hx); [done|]. by intros p q ?%elem_of_nil.
Qed.

(** numbers over several lines *)
Lemma numbers_nums (l : list D) : numbers (N <$> l) = l.
Proof. induction l as [|d l IH]; cbn; [done|]. by rewrite IH. Qed.
Lemma own_numbers {A} (c : cls A) i (add : list D -> A -> A) (l : list D) x seen e :
  (forall a y, c_act c i a y = saved (add (numbers a) y, 0)) ->
  (forall y, add [] y = y) -> (forall a b y, add b (add a y) = add (a ++ b) y) ->
  existsb (Nat.eqb i) seen = true ->
  steps (own_line c) (OS x (Some i) seen e) (wrap rnd 0 [] l) = Some (OS (add (rnd <$> l) x) (Some i) seen e).
Proof.
  intros Hact Hnil Happ Hseen.
  assert (forall (cur : list D) y ls,
    steps (own_line c) (OS y (Some i) seen e) ((N <$> cur) :: ls)
    = steps (own_line c) (OS (add cur y) (Some i) seen e) ls) as H1.
  { intros cur y ls. destruct cur as [|d cur]; [cbn [steps fmap list_fmap]; by rewrite decide_True, Hnil|].
    rewrite steps_cons by done. erewrite own_plain; [|done|by rewrite Hact|done|done]. cbn [mbind option_bind]. by rewrite numbers_nums. }
  assert (forall (n : nat) (cur : list D) y,
    steps (own_line c) (OS y (Some i) seen e) (wrap rnd n (N <$> cur) l)
    = Some (OS (add (cur ++ (rnd <$> l)) y) (Some i) seen e)) as H.
  { induction l as [|d l IH]; intros n cur y; cbn [wrap].
    - rewrite H1. cbn [steps fmap list_fmap]. by rewrite app_nil_r.
    - case_decide.
      + rewrite H1. rewrite (IH 0 [rnd d]). by rewrite Happ.
      + assert ((N <$> cur) ++ [num rnd d] = N <$> (cur ++ [rnd d])) as -> by (by rewrite fmap_app).
        rewrite IH. by rewrite <- app_assoc. }
  rewrite (H 0 []). done.
Qed.

(** a word that may be missing *)
Lemma steps_opt_word {A} (c : cls A) set o w x sv seen e ls i : dash_code (c_opts c) o = Opt i ->
  c_act c i = (fun a y => kept (a_word set a y)) -> word_or_none w ->
  (w = EmptyString -> set w x = x) ->
  exists seen', (forall j, existsb (Nat.eqb j) seen = true -> existsb (Nat.eqb j) seen' = true) /\
  steps (own_line c) (OS x sv seen e) (opt_word o w ++ ls) = steps (own_line c) (OS (set w x) sv seen' e) ls.
Proof.
  intros Hc Ha Hw H0. unfold opt_word. case_decide as E.
  - exists seen. split; [done|]. by rewrite (H0 E).
  - destruct Hw as [Hw|Hw]; [done|]. exists (saw i seen). split.
    + intros j Hj. unfold saw. destruct (existsb (Nat.eqb i) seen); [done|]. cbn [existsb]. by rewrite Hj, orb_true_r.
    + cbn [app]. rewrite (own_steps_opt c _ o _ ls i Hc). unfold act. rewrite Ha.
      unfold ws. rewrite words_word by done. cbn [fmap list_fmap o_val a_word kept o_save o_seen o_err].
      by rewrite Nat.add_0_r.
Qed.

(** ** A class with components *)

Section Parent.
Context {A B X : Type} (c : cls A) (opens : nat -> list tok -> ost A -> option (ost A * B))
  (sub : B -> list tok -> option B) (close : B -> ost A -> ost A).
Notation line := (parent_line c opens sub close).

Lemma parent_own o l o' : (forall i args, get_option (c_opts c) l = (Opt i, args) -> opens i args o = None) ->
  own_line c o l = Some o' -> line (o, None) l = Some (o', None).
Proof.
  intros Ho H. unfold parent_line, top_line. cbn [fst snd]. destruct (get_option (c_opts c) l) as [k args] eqn:E.
  destruct k as [| | |i]; [by rewrite H..|]. rewrite (Ho i args eq_refl).
  unfold own_line in H. rewrite E in H. by injection H as <-.
Qed.
Lemma parent_opt o opt' args i : dash_code (c_opts c) opt' = Opt i -> opens i args o = None ->
  line (o, None) (opt opt' args) = Some (act c i args o, None).
Proof.
  intros H1 H2. apply parent_own; [|by apply own_opt]. intros j a.
  rewrite (get_option_opt _ _ _ _ H1). by intros [= <- <-].
Qed.
Lemma steps_parent_opt o opt' args ls i : dash_code (c_opts c) opt' = Opt i -> opens i args o = None ->
  steps line (o, None) (opt opt' args :: ls) = steps line (act c i args o, None) ls.
Proof. intros H1 H2. rewrite steps_cons by done. by rewrite (parent_opt o opt' args i H1 H2). Qed.
Lemma top_opt o opt' args i : dash_code (c_opts c) opt' = Opt i -> opens i args o = None ->
  top_line c opens o (opt opt' args) = Some (act c i args o, None).
Proof. intros H1 H2. exact (parent_opt o opt' args i H1 H2). Qed.

(** lines without an option, when no component is being read *)
Definition optionless (ls : list (list tok)) : Prop :=
  forall l, l ∈ ls -> l <> [] -> exists args, get_option (c_opts c) l = (Plain, args).
Lemma steps_parent_plain o ls o' : optionless ls -> steps (own_line c) o ls = Some o' ->
  steps line (o, None) ls = Some (o', None).
Proof.
  revert o. induction ls as [|l ls IH]; intros o Hp; cbn [steps]; [by intros [= ->]|].
  assert (optionless ls) as Hq. { intros k Hk. apply Hp. by right. }
  case_decide as E; [by apply IH|].
  destruct (own_line c o l) as [o1|] eqn:E1; [|done]. cbn [mbind option_bind]. intros H.
  rewrite (parent_own o l o1); [by apply IH| |done].
  intros i args Hg. destruct (Hp l (elem_of_list_here _ _) E) as [a Ha]. congruence.
Qed.

Lemma steps_sub o b ls b' : steps sub b ls = Some b' -> steps line (o, Some b) ls = Some (o, Some b').
Proof.
  revert b. induction ls as [|l ls IH]; intros b; cbn [steps]; [by intros [= ->]|].
  case_decide; [apply IH|]. destruct (sub b l) as [b1|] eqn:E; [|done]. cbn [mbind option_bind]. intros H1.
  assert (line (o, Some b) l = Some (o, Some b1)) as ->; [|by apply IH]. unfold parent_line. cbn [fst snd]. by rewrite E.
Qed.

(** the state [s] acts on the options [bnd] as [o] does with no component open *)
Definition ready (bnd : list string) (s : pst A B) (o : ost A) : Prop :=
  forall w args, w ∈ bnd -> line s (opt w args) = top_line c opens o (opt w args).
Lemma ready_none bnd o : ready bnd (o, None) o.
Proof. intros w args _. done. Qed.
Lemma steps_ready bnd s o w args ls : ready bnd s o -> w ∈ bnd ->
  steps line s (opt w args :: ls) = steps line (o, None) (opt w args :: ls).
Proof. intros H Hw. rewrite !steps_cons by done. by rewrite (H w args Hw). Qed.

Lemma steps_components (bnd : list string) (copt : string) (name : X -> list tok)
    (clines : X -> list (list tok)) (o_of : list X -> ost A) (all : list X) s :
  copt ∈ bnd ->
  (forall pre x post, all = pre ++ x :: post -> exists o1 b b',
     top_line c opens (o_of pre) (opt copt (name x)) = Some (o1, Some b) /\
     steps sub b (clines x) = Some b' /\
     Forall (fun w => forall args, sub b' (opt w args) = None) bnd /\
     close b' o1 = o_of (pre ++ [x])) ->
  ready bnd s (o_of []) ->
  exists s', steps line s (flat_map (fun x => opt copt (name x) :: clines x) all) = Some s' /\ ready bnd s' (o_of all).
Proof.
  intros Hc H Hr.
  assert (forall post pre s, all = pre ++ post -> ready bnd s (o_of pre) ->
    exists s', steps line s (flat_map (fun x => opt copt (name x) :: clines x) post) = Some s' /\
      ready bnd s' (o_of all)) as G; [|by apply (G all [])].
  clear s Hr. induction post as [|x post IH]; intros pre s E Hr.
  { exists s. split; [done|]. by rewrite E, app_nil_r. }
  destruct (H pre x post E) as (o1 & b & b' & H1 & H2 & H3 & H4).
  cbn [flat_map app]. rewrite steps_cons by done. rewrite (Hr copt _ Hc), H1. cbn [mbind option_bind].
  rewrite steps_app, (steps_sub _ _ _ _ H2). cbn [mbind option_bind].
  apply (IH (pre ++ [x])); [by rewrite <- app_assoc|].
  intros w args Hw. unfold parent_line at 1. cbn [fst snd]. rewrite Forall_forall in H3. by rewrite (H3 w Hw args), H4.
Qed.
End Parent.

Lemma names_optionless {A} (c : cls A) (l : nmap D) : plain_names keywords (c_opts c) l ->
  optionless c (names_lines rnd l).
Proof.
  intros [_ H] k Hk _. apply elem_of_list_fmap in Hk as ([n v] & -> & Hk). cbn.
  pose proof (H n v Hk) as Hn. unfold ws. rewrite words_word by apply Hn. cbn.
  eexists. by apply get_option_plain.
Qed.
Lemma wrap_optionless {A} (c : cls A) (l : list D) : optionless c (wrap rnd 0 [] l).
Proof.
  assert (forall n (cur : list D), optionless c (wrap rnd n (N <$> cur) l)) as H; [|exact (H 0 [])].
  induction l as [|d l IH]; intros n cur; cbn [wrap].
  - intros k Hk Hn. apply elem_of_list_singleton in Hk as ->. destruct cur as [|x cur]; [done|]. by eexists.
  - case_decide.
    + intros k Hk Hn. apply elem_of_cons in Hk as [-> | Hk].
      * destruct cur as [|x cur]; [done|]. by eexists.
      * by apply (IH 0 [rnd d]).
    + assert ((N <$> cur) ++ [num rnd d] = N <$> (cur ++ [rnd d])) as -> by (by rewrite fmap_app).
      apply IH.
Qed.

Lemma named_found_none {A} (name : A -> string) s l : lows s ∉ (fun x => lows (name x)) <$> l ->
  named_found name s l = None.
Proof.
  intros H. unfold named_found. destruct (list_find _ l) as [[i x]|] eqn:E; [|done].
  exfalso. apply list_find_Some in E as (E1 & E2 & _). apply H, elem_of_list_fmap. exists x.
  split; [|by apply elem_of_list_lookup_2 in E1]. unfold same_name in E2. apply String.eqb_eq in E2.
  by rewrite !lows_lowered.
Qed.
End Lines.
