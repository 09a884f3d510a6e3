(** What the readers of [Raw.Model] make of the lines that the writers write. *)
From Coq Require Import Ascii String Sorting.Sorted.
From stdpp Require Import prelude strings gmap.
From Verif.Names Require Import Model Spec Proofs.
From Verif.Reactant Require Import Model.
From Verif.Transfer Require Import Model Proofs.
From Verif.Raw Require Import Fields Model Spec Lines.

Section Go.
Context {D : Type}.
Notation cls := (@cls D).
Definition next (k : keep) (i : nat) (sv : option nat) : option nat :=
  match k with Keep => sv | Drop => None | Save => Some i end.
Lemma own_go {A} (c : cls A) x sv seen e o args ls i x' k :
  dash_code (c_opts c) o = Opt i -> c_act c i args x = (x', 0, k) ->
  steps (own_line c) (OS x sv seen e) (opt o args :: ls) = steps (own_line c) (OS x' (next k i sv) (saw i seen) e) ls.
Proof.
  intros H1 H2. rewrite (own_steps_opt c _ o args ls i H1). unfold act. cbn [o_val o_save o_seen o_err].
  rewrite H2. by rewrite Nat.add_0_r.
Qed.
Lemma parent_go {A B} (c : cls A) opens (sub : B -> list tok -> option B) close x sv seen e o args ls i x' k :
  dash_code (c_opts c) o = Opt i -> opens i args (OS x sv seen e) = None -> c_act c i args x = (x', 0, k) ->
  steps (parent_line c opens sub close) (OS x sv seen e, None) (opt o args :: ls)
  = steps (parent_line c opens sub close) (OS x' (next k i sv) (saw i seen) e, None) ls.
Proof.
  intros H1 H2 H3. rewrite (steps_parent_opt c opens sub close _ o args ls i H1 H2). unfold act.
  cbn [o_val o_save o_seen o_err]. rewrite H3. by rewrite Nat.add_0_r.
Qed.
Lemma a_bool_yes {A} (set : bool -> A -> A) b r x : a_bool (D := D) set (yes b :: r) x = (set b x, 0).
Proof. by destruct b. Qed.
Lemma a_flag_yes {A} (set : bool -> A -> A) b r x : a_flag (D := D) set (yes b :: r) x = (set b x, 0).
Proof. by destruct b. Qed.
Lemma a_kind_type k r (x : gas_phase (D := D)) : a_kind (I (gas_type k) :: r) x = (set_gp_kind k x, 0).
Proof. by destruct k. Qed.
Lemma on_kin_eq (f : kin_comp (D := D) -> kin_comp * nat) x t x' e : f x = (x', e) ->
  kept (on_kin f (x, t)) = ((x', t), e, Keep).
Proof. unfold on_kin. cbn [fst snd]. by intros ->. Qed.
Lemma on_kinetics_eq (f : kinetics (D := D) -> kinetics * nat) x t x' e : f x = (x', e) ->
  kept (on_kinetics f (x, t)) = ((x', t), e, Keep).
Proof. unfold on_kinetics. cbn [fst snd]. by intros ->. Qed.
Lemma ws_word w : word w -> ws (D := D) w = [W w].
Proof. intros H. unfold ws. by rewrite words_word. Qed.
Lemma opt_word_none o : opt_word (D := D) o "" = [].
Proof. done. Qed.
Lemma opt_word_some o w : word w -> opt_word (D := D) o w = [opt o [W w]].
Proof. intros H. unfold opt_word. rewrite decide_False by apply H. by rewrite ws_word. Qed.
Lemma steps_then {S} (f : S -> list tok -> option S) s a b s' : steps (D := D) f s a = Some s' ->
  steps f s (a ++ b) = steps f s' b.
Proof. intros H. by rewrite steps_app, H. Qed.
Lemma steps_pair {K B} (f : B -> list tok -> option B) (k : K) b ls b' : steps (D := D) f b ls = Some b' ->
  steps (fun (p : K * B) l => option_map (fun d => (p.1, d)) (f p.2 l)) (k, b) ls = Some (k, b').
Proof.
  revert b. induction ls as [|l ls IH]; intros b; cbn [steps]; [by intros [= ->]|].
  case_decide; [apply IH|]. cbn [fst snd]. destruct (f b l) as [b1|]; [|done]. cbn [option_map mbind option_bind].
  apply IH.
Qed.
End Go.

Ltac acting :=
  first [cbv beta iota zeta delta [c_act exchange_cls gas_phase_cls kin_comp_cls kinetics_cls pp_comp_cls pp_cls
           solid_cls ssa_cls surf_comp_cls surface_cls solution_cls reaction_cls temperature_cls pressure_cls steps_act];
         first [apply on_kin_eq; first [rewrite a_bool_yes; reflexivity|reflexivity]
               |apply on_kinetics_eq; first [rewrite a_bool_yes; reflexivity|reflexivity]
               |rewrite a_bool_yes; reflexivity|rewrite a_flag_yes; reflexivity|rewrite a_kind_type; reflexivity]
        |reflexivity].
Ltac go1 := erewrite own_go; [|reflexivity|acting]; cbn [next saw existsb Nat.eqb orb fst snd].
Ltac go := repeat go1.
Ltac pgo1 := erewrite parent_go; [|reflexivity|reflexivity|acting];
             cbn [next saw existsb Nat.eqb orb fst snd].
Ltac pgo := repeat pgo1.
Ltac bounds := repeat constructor; intros; cbv beta delta [exch_sub gas_sub kin_sub pp_sub ss_comp_sub]; cbn [fst snd];
               by rewrite own_unknown.
Ltac lens := first [done|by intros []|by intros ? []|by intros ? ? []].

Section Exchange.
Context {D : Type} (lit : string -> D) (rnd : D -> D).

Lemma exch_comp_read (x : exch_comp (D := D)) : fits_exch_comp keywords (c_opts (exch_comp_cls lit)) x ->
  exists seen, steps (own_line (exch_comp_cls lit)) (fresh (new_exch_comp lit (ec_formula x))) (exch_comp_lines rnd x)
    = Some (OS (restored_exch_comp rnd x) (Some 8) seen 0) /\
  forall v sv e, missing (exch_comp_cls lit) (OS v sv seen e) = 0.
Proof.
  intros (Hf & Ht & Hp & Hr). unfold exch_comp_lines, fresh. go.
  rewrite steps_app. erewrite (own_names rnd); [|reflexivity|lens|lens|lens|reflexivity|reflexivity|exact Ht].
  cbn [mbind option_bind app fst snd]. go.
  destruct Hp as [Hp|Hp]; [rewrite Hp, opt_word_none|rewrite opt_word_some by done]; cbn [app]; go;
  (destruct Hr as [Hr|Hr]; [rewrite Hr, opt_word_none|rewrite opt_word_some by done]); cbn [app]; go;
  cbn [steps]; eexists; (split; [unfold restored_exch_comp; rewrite ?Hp, ?Hr; reflexivity|intros; reflexivity]).
Qed.
Lemma exch_found_none w (x : exchange (D := D)) :
  (forall c, c ∈ ex_comps x -> ~ named (ec_totals c) w) -> exch_found w x = None.
Proof.
  intros H. unfold exch_found. destruct (list_find _ _) as [[i c]|] eqn:E; [|done].
  exfalso. apply list_find_Some in E as (E1 & E2 & _). apply elem_of_list_lookup_2 in E1.
  apply (H c E1). apply existsb_exists in E2 as ([n v] & Hn & E3). apply String.eqb_eq in E3. cbn in E3. subst.
  exists v. by apply elem_of_list_In.
Qed.
Lemma named_rnds l w : named (rnds (D := D) rnd l) w -> named l w.
Proof.
  intros [v Hv]. apply elem_of_list_fmap in Hv as ([n u] & E & Hv). injection E as -> ->. by exists u.
Qed.

Lemma exchange_comps base all seen e :
  Forall (fits_exch_comp keywords (c_opts (exch_comp_cls lit))) all ->
  (forall i j a b, i < j -> all !! i = Some a -> all !! j = Some b -> ~ named (ec_totals a) (ec_formula b)) ->
  let o l := OS (set_ex_comps (restored_exch_comp rnd <$> l) base) None seen e in
  exists s', steps (parent_line (exchange_cls (D := D)) (exchange_opens lit) (exch_sub lit) (exchange_close lit))
      (o [], None) (flat_map (fun c => opt "component" (ws (ec_formula c)) :: exch_comp_lines rnd c) all) = Some s' /\
    ready (exchange_cls (D := D)) (exchange_opens lit) (exch_sub lit) (exchange_close lit)
      ["component"; "new_def"]%string s' (o all).
Proof.
  intros Hc Hn o. apply (steps_components _ _ _ _ _ "component" (fun c => ws (ec_formula c)) (exch_comp_lines rnd) o).
  { by left. }
  2: { apply ready_none. }
  intros pre c post E.
  assert (fits_exch_comp keywords (c_opts (exch_comp_cls lit)) c) as Hfc.
  { rewrite E in Hc. apply Forall_app in Hc as [_ Hc]. by apply Forall_cons in Hc as [Hc _]. }
  destruct (exch_comp_read c Hfc) as (seen' & Hread & Hmiss).
  exists (o pre), (ec_formula c, false, fresh (new_exch_comp lit (ec_formula c))),
    (ec_formula c, false, OS (restored_exch_comp rnd c) (Some 8) seen' 0).
  split; [|split; [|split]].
  - unfold top_line. rewrite (get_option_opt _ _ _ 1) by reflexivity.
    rewrite ws_word by apply Hfc. cbn [exchange_opens]. rewrite exch_found_none; [done|].
    intros d Hd'. apply elem_of_list_fmap in Hd' as (a & -> & Ha). cbn [ec_totals restored_exch_comp].
    intros Hna. apply named_rnds in Hna. apply elem_of_list_lookup in Ha as [i Ha].
    apply (Hn i (length pre) a c); [by apply lookup_lt_Some in Ha| | |done].
    + rewrite E. by apply lookup_app_l_Some.
    + rewrite E. by apply list_lookup_middle.
  - by apply steps_pair.
  - bounds.
  - unfold exchange_close, o. cbn [o_val o_save o_seen o_err put ex_comps set_ex_comps]. rewrite Hmiss, !Nat.add_0_r, fmap_app.
    done.
Qed.

Lemma exchange_read (x : exchange (D := D)) :
  fits_exchange keywords (c_opts (exch_comp_cls lit)) x ->
  exists y, read_exchange lit (ex_n x) (ex_text x) (exchange_lines rnd x) = (y, 0) /\ restored_exchange rnd x y.
Proof.
  intros (Hc & Hd & Ht & Hn).
  destruct (exchange_comps (set_ex_pitzer (D := D) (ex_pitzer x) (new_exchange (ex_n x) (ex_text x))) (ex_comps x)
    [2] 0 Hc Hn) as (s' & Hs & Hr).
  eassert (steps (parent_line exchange_cls (exchange_opens lit) (exch_sub lit) (exchange_close lit))
    (fresh (new_exchange (ex_n x) (ex_text x)), None) (exchange_lines rnd x) = Some _) as Hst.
  { unfold exchange_lines, fresh. cbn [app]. pgo1.
    etransitivity; [exact (steps_then _ _ _ _ _ Hs)|].
    etransitivity; [apply (steps_ready _ _ _ _ _ _ _ _ _ _ Hr); by right; left|].
    pgo. rewrite Ht. reflexivity. }
  unfold read_exchange. rewrite (steps_run _ _ _ _ Hst).
  eexists. split; [reflexivity|].
  eexists _, _. split; [apply trim_stripped|]. split; [|reflexivity].
  apply sort_by_sorted. change (NoDup (ec_formula <$> (restored_exch_comp rnd <$> ex_comps x))).
  rewrite <- list_fmap_compose. exact Hd.
Qed.
End Exchange.

Section Found.
Context {D : Type} (rnd : D -> D).
Lemma distinct_pre {X} (name : X -> string) all pre x post : all = pre ++ x :: post -> distinct (name <$> all) ->
  lows (name x) ∉ (fun y => lows (name y)) <$> pre.
Proof.
  intros -> H Hin. unfold distinct in H. rewrite <- list_fmap_compose, fmap_app, fmap_cons in H.
  apply NoDup_app in H as (_ & H & _). apply (H (lows (name x))); [exact Hin|by left].
Qed.
Lemma parent_names {A B} (c : cls (D := D) A) opens (sub : B -> list tok -> option B) close i get set (l : nmap D) x seen e ls :
  (forall a y, c_act c i a y = saved (a_names get set a y)) ->
  (forall v y, get (set v y) = v) -> (forall y, set (get y) y = y) -> (forall v w y, set v (set w y) = set v y) ->
  existsb (Nat.eqb i) seen = true -> get x = [] -> plain_names keywords (c_opts c) l ->
  steps (parent_line c opens sub close) (OS x (Some i) seen e, None) (names_lines rnd l ++ ls)
  = steps (parent_line c opens sub close) (OS (set (rnds rnd l) x) (Some i) seen e, None) ls.
Proof.
  intros. apply steps_then, steps_parent_plain; [by apply names_optionless|]. by eapply own_names.
Qed.
End Found.

Section Gas.
Context {D : Type} (lit : string -> D) (rnd : D -> D).

Lemma gas_comp_read (x : gas_comp (D := D)) :
  exists seen, steps (own_line (gas_comp_cls lit)) (fresh (new_gas_comp lit (gc_name x))) (gas_comp_lines rnd x)
    = Some (OS (restored_gas_comp lit rnd x) None seen 0).
Proof. unfold gas_comp_lines, fresh. go. cbn [steps]. eexists. reflexivity. Qed.

Lemma gas_comps base all seen e :
  Forall (fun c => word (gc_name c)) all -> distinct (gc_name <$> all) ->
  let o l := OS (set_gp_comps (restored_gas_comp lit rnd <$> l) base) None seen e in
  exists s', steps (parent_line (gas_phase_cls (D := D) lit) (gas_opens lit) (gas_sub lit) gas_close)
      (o [], None) (flat_map (fun c => opt "component" (ws (gc_name c)) :: gas_comp_lines rnd c) all) = Some s' /\
    ready (gas_phase_cls (D := D) lit) (gas_opens lit) (gas_sub lit) gas_close
      ["component"; "new_def"]%string s' (o all).
Proof.
  intros Hc Hd o. apply (steps_components _ _ _ _ _ "component" (fun c => ws (gc_name c)) (gas_comp_lines rnd) o).
  { by left. }
  2: { apply ready_none. }
  intros pre c post E. destruct (gas_comp_read c) as (seen' & Hread).
  assert (word (gc_name c)) as Hw.
  { rewrite E in Hc. apply Forall_app in Hc as [_ Hc]. by apply Forall_cons in Hc as [Hc _]. }
  exists (o pre), (gc_name c, false, fresh (new_gas_comp lit (gc_name c))),
    (gc_name c, false, OS (restored_gas_comp lit rnd c) None seen' 0).
  split; [|split; [|split]].
  - unfold top_line. rewrite (get_option_opt _ _ _ 4) by reflexivity.
    rewrite ws_word by done. cbn [gas_opens]. rewrite named_found_none; [done|].
    change (lows (gc_name c) ∉ (fun y => lows (gc_name y)) <$> (restored_gas_comp lit rnd <$> pre)).
    rewrite <- list_fmap_compose. by apply (distinct_pre gc_name _ _ _ _ E).
  - by apply steps_pair.
  - bounds.
  - unfold gas_close, o. cbn [o_val o_save o_seen o_err put gp_comps set_gp_comps]. by rewrite Nat.add_0_r, fmap_app.
Qed.

Lemma gas_phase_read (x : gas_phase (D := D)) :
  fits_gas_phase keywords (c_opts (gas_phase_cls lit)) x ->
  exists y, read_gas_phase lit (gp_n x) (gp_text x) (gas_phase_lines rnd x) = (y, 0) /\ restored_gas_phase lit rnd x y.
Proof.
  intros (Hc & Hd & Ht).
  destruct (gas_comps (set_gp_vol (rnd (gp_vol x)) (set_gp_total_p (rnd (gp_total_p x)) (set_gp_kind (D := D) (gp_kind x)
    (new_gas_phase lit (gp_n x) (gp_text x))))) (gp_comps x) [2; 1; 0] 0 Hc Hd) as (s' & Hs & Hr).
  eassert (steps (parent_line (gas_phase_cls lit) (gas_opens lit) (gas_sub lit) gas_close)
    (fresh (new_gas_phase lit (gp_n x) (gp_text x)), None) (gas_phase_lines rnd x) = Some _) as Hst.
  { unfold gas_phase_lines, fresh. cbn [app]. do 3 pgo1.
    etransitivity; [exact (steps_then _ _ _ _ _ Hs)|].
    etransitivity; [apply (steps_ready _ _ _ _ _ _ _ _ _ _ Hr); by right; left|].
    pgo. rewrite <- (app_nil_r (names_lines rnd _)).
    erewrite parent_names; [|reflexivity|lens|lens|lens|reflexivity|reflexivity|exact Ht]. reflexivity. }
  unfold read_gas_phase. rewrite (steps_run _ _ _ _ Hst).
  eexists. split; [reflexivity|]. eexists. split; [apply trim_stripped|]. reflexivity.
Qed.
End Gas.

Section Kinetics.
Context {D : Type} (lit : string -> D) (rnd : D -> D).

Lemma kin_comp_read (x : kin_comp (D := D)) : fits_kin_comp keywords (c_opts (kin_comp_cls lit)) x ->
  exists seen r, steps (own_line (kin_comp_cls lit)) (fresh (new_kin_comp lit (kc_rate x), [])) (kin_comp_lines rnd x)
    = Some (OS r (Some 6) seen 0) /\ kin_comp_done r = restored_kin_comp rnd x.
Proof.
  intros (Hf & Ht). unfold kin_comp_lines, fresh. cbn [app]. go.
  rewrite steps_app. erewrite (own_names rnd _ 5 (fun y => kc_coef y.1) (fun v y => (set_kc_coef v y.1, y.2)));
    [|intros [|[] [|[] ?]] []; reflexivity|lens|by intros [[] ?]|lens|reflexivity|reflexivity|exact Ht].
  cbn [mbind option_bind app fst snd]. go.
  rewrite steps_app. erewrite (own_numbers rnd _ 6 (fun v y => (y.1, y.2 ++ v)));
    [|reflexivity|intros []; cbn; by rewrite app_nil_r|intros; cbn; by rewrite <- app_assoc|reflexivity].
  cbn [mbind option_bind app fst snd]. go. cbn [steps]. eexists _, _. split; [reflexivity|].
  unfold kin_comp_done. cbn [fst snd]. destruct x as [? ? ? ? ? [|d l] ? ? ? ?]; reflexivity.
Qed.

Lemma kinetics_comps base all seen e :
  Forall (fits_kin_comp keywords (c_opts (kin_comp_cls lit))) all -> distinct (kc_rate <$> all) ->
  let o l := OS (set_ki_comps (restored_kin_comp rnd <$> l) base, @nil D) None seen e in
  exists s', steps (parent_line (kinetics_cls (D := D) lit) (kinetics_opens lit) (kin_sub lit) kinetics_close)
      (o [], None) (flat_map (fun c => opt "component" (ws (kc_rate c)) :: kin_comp_lines rnd c) all) = Some s' /\
    ready (kinetics_cls (D := D) lit) (kinetics_opens lit) (kin_sub lit) kinetics_close
      ["component"; "equal_increments"]%string s' (o all).
Proof.
  intros Hc Hd o. apply (steps_components _ _ _ _ _ "component" (fun c => ws (kc_rate c)) (kin_comp_lines rnd) o).
  { by left. }
  2: { apply ready_none. }
  intros pre c post E.
  assert (fits_kin_comp keywords (c_opts (kin_comp_cls lit)) c) as Hfc.
  { rewrite E in Hc. apply Forall_app in Hc as [_ Hc]. by apply Forall_cons in Hc as [Hc _]. }
  destruct (kin_comp_read c Hfc) as (seen' & r & Hread & Hdone).
  exists (o pre), (kc_rate c, false, fresh (new_kin_comp lit (kc_rate c), [])),
    (kc_rate c, false, OS r (Some 6) seen' 0).
  split; [|split; [|split]].
  - unfold top_line. rewrite (get_option_opt _ _ _ 4) by reflexivity.
    rewrite ws_word by apply Hfc. cbn [kinetics_opens]. rewrite named_found_none; [done|].
    change (lows (kc_rate c) ∉ (fun y => lows (kc_rate y)) <$> (restored_kin_comp rnd <$> pre)).
    rewrite <- list_fmap_compose. by apply (distinct_pre kc_rate _ _ _ _ E).
  - by apply steps_pair.
  - bounds.
  - unfold kinetics_close, o. cbn [o_val o_save o_seen o_err put fst snd ki_comps set_ki_comps].
    by rewrite Hdone, Nat.add_0_r, fmap_app.
Qed.

Lemma kinetics_read (x : kinetics (D := D)) :
  fits_kinetics keywords (c_opts (kin_comp_cls lit)) (c_opts (kinetics_cls lit)) x ->
  exists y, read_kinetics lit (ki_n x) (ki_text x) (kinetics_lines rnd x) = (y, 0) /\ restored_kinetics rnd x y.
Proof.
  intros (Hc & Hd & Ht).
  destruct (kinetics_comps (set_ki_cv_order (ki_cv_order x) (set_ki_cv_steps (ki_cv_steps x) (set_ki_cvode (ki_cvode x)
    (set_ki_bad (ki_bad x) (set_ki_rk (ki_rk x) (set_ki_divide (rnd (ki_divide x))
    (new_kinetics lit (ki_n x) (ki_text x)))))))) (ki_comps x) [8; 7; 3; 2; 1; 0] 0 Hc Hd) as (s' & Hs & Hr).
  eassert (steps (parent_line (kinetics_cls lit) (kinetics_opens lit) (kin_sub lit) kinetics_close)
    (fresh (new_kinetics lit (ki_n x) (ki_text x), []), None) (kinetics_lines rnd x) = Some _) as Hst.
  { unfold kinetics_lines, fresh. cbn [app]. do 6 pgo1.
    etransitivity; [exact (steps_then _ _ _ _ _ Hs)|].
    etransitivity; [apply (steps_ready _ _ _ _ _ _ _ _ _ _ Hr); by right; left|].
    pgo.
    etransitivity.
    { apply steps_then, steps_parent_plain; [apply wrap_optionless|].
      apply (own_numbers rnd _ 6 (fun v y => (y.1, y.2 ++ v)));
        [reflexivity|intros []; cbn; by rewrite app_nil_r|intros; cbn; by rewrite <- app_assoc|reflexivity]. }
    cbn [app fst snd]. pgo1. rewrite <- (app_nil_r (names_lines rnd _)).
    erewrite (parent_names rnd _ _ _ _ 5 (fun y => ki_totals y.1) (fun v y => (set_ki_totals v y.1, y.2)));
      [|intros [|[] [|[] ?]] []; reflexivity|lens|by intros [[] ?]|lens|reflexivity|reflexivity|exact Ht]. reflexivity. }
  unfold read_kinetics. rewrite (steps_run _ _ _ _ Hst).
  eexists. split; [reflexivity|]. eexists. split; [apply trim_stripped|].
  cbn [settle fst snd o_val app]. destruct x as [? ? ? ? [|d l] ? ? ? ? ? ? ? ? ?]; reflexivity.
Qed.
End Kinetics.

Section Maps.
Context {V : Type}.
Lemma nd_set_last (l : nmap V) k v : (forall p, p ∈ l -> before p.1 k) -> nd_set k v l = l ++ [(k, v)].
Proof.
  induction l as [|[m w] l IH]; intros Ha; cbn [nd_set app]; [done|].
  destruct (scmp_spec k m) as [H|H|H].
  - exfalso. eapply before_asym; [apply H|]. apply (Ha (m, w)). by left.
  - subst. exfalso. eapply before_irrefl, (Ha (m, w)). by left.
  - f_equal. apply IH. intros p Hp. apply Ha. by right.
Qed.
Lemma nd_find_last (l : nmap V) k : (forall p, p ∈ l -> before p.1 k) -> nd_find k l = None.
Proof.
  induction l as [|[m w] l IH]; intros Ha; cbn [nd_find]; [done|].
  destruct (scmp_spec k m) as [H|H|H]; [done| |].
  - subst. exfalso. eapply before_irrefl, (Ha (m, w)). by left.
  - apply IH. intros p Hp. apply Ha. by right.
Qed.
Lemma ordered_mid (all pre : list (string * V)) x post p : all = pre ++ x :: post -> ordered all -> p ∈ pre -> before p.1 x.1.
Proof.
  intros ->. induction pre as [|q pre IH]; intros Ho Hp; [by apply elem_of_nil in Hp|].
  apply StronglySorted_inv in Ho as [Ho Hf]. apply elem_of_cons in Hp as [-> | Hp]; [|by apply IH].
  rewrite Forall_forall in Hf. apply Hf, elem_of_app. right. by left.
Qed.
Lemma ordered_snoc (l : list (string * V)) k v : ordered l -> (forall p, p ∈ l -> before p.1 k) -> ordered (l ++ [(k, v)]).
Proof.
  induction l as [|[m w] l IH]; intros Ho Hb; cbn [app].
  { apply ordered_cons. split; [apply ordered_nil|]. by intros ?? ?%elem_of_nil. }
  apply ordered_cons in Ho as [Ho H]. apply ordered_cons. split.
  - apply IH; [done|]. intros p Hp. apply Hb. by right.
  - intros n u Hn. apply elem_of_app in Hn as [Hn|Hn]; [by apply (H n u)|].
    apply elem_of_list_singleton in Hn. injection Hn as -> ->. apply (Hb (m, w)). by left.
Qed.
End Maps.

Section Phases.
Context {D : Type} (lit : string -> D) (rnd : D -> D).

Lemma pp_comp_read (x : pp_comp (D := D)) : fits_pp_comp keywords (c_opts (pp_comp_cls lit)) x ->
  exists seen, steps (own_line (pp_comp_cls lit)) (fresh (new_pp_comp lit (pc_name x))) (pp_comp_lines rnd x)
    = Some (OS (restored_pp_comp rnd x) (Some 10) seen 0) /\
  forall v sv e, missing (pp_comp_cls lit) (OS v sv seen e) = 0.
Proof.
  intros (Hf & Hp & Ht). unfold pp_comp_lines, fresh. cbn [app].
  destruct Hp as [Hp|Hp]; [rewrite Hp, opt_word_none|rewrite opt_word_some by done]; cbn [app]; go;
  (erewrite (own_names rnd); [|reflexivity|lens|lens|lens|reflexivity| |exact Ht]);
  [|cbv [only_dissolve only_precipitate]; by destruct (pc_dissolve x), (pc_precip x)
   | |cbv [only_dissolve only_precipitate]; by destruct (pc_dissolve x), (pc_precip x)];
  (eexists; split; [unfold restored_pp_comp, only_dissolve, only_precipitate; rewrite ?Hp;
    destruct (pc_dissolve x), (pc_precip x); reflexivity|intros; reflexivity]).
Qed.

Lemma pp_found_none w (x : pp_assemblage (D := D)) : lows w ∉ (fun p => lows p.1) <$> pp_comps x -> pp_found w x = None.
Proof.
  intros H. unfold pp_found. destruct (list_find _ _) as [[i p]|] eqn:E; [|done].
  exfalso. apply list_find_Some in E as (E1 & E2 & _). apply H, elem_of_list_fmap. exists p.
  split; [|by apply elem_of_list_lookup_2 in E1]. unfold same_name in E2. apply String.eqb_eq in E2.
  by rewrite !lows_lowered.
Qed.

Lemma pp_comps_read base all seen e : ordered all ->
  Forall (fun p => p.1 = pc_name p.2 /\ fits_pp_comp keywords (c_opts (pp_comp_cls lit)) p.2) all -> distinct all.*1 ->
  let o l := OS (set_pp_comps ((fun p => (p.1, restored_pp_comp rnd p.2)) <$> l) base) None seen e in
  exists s', steps (parent_line (pp_cls (D := D)) (pp_opens lit) (pp_sub lit) (pp_close lit))
      (o [], None) (flat_map (fun p => opt "component" (ws (pc_name p.2)) :: pp_comp_lines rnd p.2) all) = Some s' /\
    ready (pp_cls (D := D)) (pp_opens lit) (pp_sub lit) (pp_close lit) ["component"; "eltList"]%string s' (o all).
Proof.
  intros Ho Hc Hd o.
  apply (steps_components _ _ _ _ _ "component" (fun p => ws (pc_name p.2)) (fun p => pp_comp_lines rnd p.2) o).
  { by left. }
  2: { apply ready_none. }
  intros pre [k c] post E.
  assert (k = pc_name c /\ fits_pp_comp keywords (c_opts (pp_comp_cls lit)) c) as [-> Hfc].
  { rewrite E in Hc. apply Forall_app in Hc as [_ Hc]. by apply Forall_cons in Hc as [Hc _]. }
  destruct (pp_comp_read c Hfc) as (seen' & Hread & Hmiss).
  exists (o pre), (pc_name c, fresh (new_pp_comp lit (pc_name c))),
    (pc_name c, OS (restored_pp_comp rnd c) (Some 10) seen' 0).
  split; [|split; [|split]].
  - unfold top_line. rewrite (get_option_opt _ _ _ 1) by reflexivity. cbn [snd].
    rewrite ws_word by apply Hfc. cbn [pp_opens]. rewrite pp_found_none; [done|].
    change (lows (pc_name c) ∉ (fun p => lows p.1) <$> ((fun p => (p.1, restored_pp_comp rnd p.2)) <$> pre)).
    rewrite <- list_fmap_compose. exact (distinct_pre fst _ _ _ _ E Hd).
  - by apply steps_pair.
  - bounds.
  - unfold pp_close, o. cbn [o_val o_save o_seen o_err pp_comps set_pp_comps fst snd]. rewrite Hmiss, !Nat.add_0_r.
    rewrite nd_set_last; [by rewrite fmap_app|]. intros p Hp.
    apply elem_of_list_fmap in Hp as (q & -> & Hq). exact (ordered_mid _ _ _ _ _ E Ho Hq).
Qed.

Lemma pp_read (x : pp_assemblage (D := D)) :
  fits_pp keywords (c_opts (pp_comp_cls lit)) (c_opts (pp_cls (D := D))) x ->
  exists y, read_pp lit (pp_n x) (pp_text x) (pp_lines rnd x) = (y, 0) /\ restored_pp rnd x y.
Proof.
  intros (Ho & Hc & Hd & He & Ht).
  destruct (pp_comps_read (set_pp_new (D := D) false (new_pp (pp_n x) (pp_text x))) (pp_comps x) [2] 0 Ho Hc Hd)
    as (s' & Hs & Hr).
  eassert (steps (parent_line pp_cls (pp_opens lit) (pp_sub lit) (pp_close lit))
    (fresh (new_pp (pp_n x) (pp_text x)), None) (pp_lines rnd x) = Some _) as Hst.
  { unfold pp_lines, fresh. cbn [app]. pgo1.
    etransitivity; [exact (steps_then _ _ _ _ _ Hs)|].
    etransitivity; [apply (steps_ready _ _ _ _ _ _ _ _ _ _ Hr); by right; left|].
    pgo. erewrite parent_names; [|reflexivity|lens|lens|lens|reflexivity|reflexivity|exact He].
    cbn [app]. pgo. rewrite <- (app_nil_r (names_lines rnd (pp_totals x))).
    erewrite parent_names; [|reflexivity|lens|lens|lens|reflexivity|reflexivity|exact Ht]. reflexivity. }
  unfold read_pp. rewrite (steps_run _ _ _ _ Hst).
  eexists. split; [reflexivity|]. eexists. split; [apply trim_stripped|]. reflexivity.
Qed.
End Phases.

Section Solids.
Context {D : Type} (lit : string -> D) (rnd : D -> D).

Lemma ss_comp_read (x : ss_comp (D := D)) :
  exists seen, steps (own_line (ss_comp_cls lit)) (fresh (new_ss_comp lit (sc_name x))) (ss_comp_lines rnd x)
    = Some (OS (restored_ss_comp rnd x) None seen 0).
Proof. unfold ss_comp_lines, fresh. go. cbn [steps]. eexists. reflexivity. Qed.

Lemma ss_found_none w (l : list (ss_comp (D := D))) : w ∉ sc_name <$> l -> ss_found w l = None.
Proof.
  intros H. unfold ss_found. destruct (list_find _ l) as [[i x]|] eqn:E; [|done].
  exfalso. apply list_find_Some in E as (E1 & E2 & _). apply H, elem_of_list_fmap. exists x.
  split; [|by apply elem_of_list_lookup_2 in E1]. symmetry. by apply String.eqb_eq.
Qed.

Lemma solid_comps base all seen e :
  Forall (fun c => word (sc_name c)) all -> NoDup (sc_name <$> all) ->
  let o l := OS (set_ss_comps (restored_ss_comp rnd <$> l) base) None seen e in
  exists s', steps (solid_line lit)
      (o [], None) (flat_map (fun c => opt "component" (ws (sc_name c)) :: ss_comp_lines rnd c) all) = Some s' /\
    ready (solid_cls (D := D) lit) (solid_opens lit) (ss_comp_sub lit) solid_close ["component"; "tk"]%string s' (o all).
Proof.
  intros Hc Hd o. apply (steps_components _ _ _ _ _ "component" (fun c => ws (sc_name c)) (ss_comp_lines rnd) o).
  { by left. }
  2: { apply ready_none. }
  intros pre c post E. destruct (ss_comp_read c) as (seen' & Hread).
  assert (word (sc_name c)) as Hw.
  { rewrite E in Hc. apply Forall_app in Hc as [_ Hc]. by apply Forall_cons in Hc as [Hc _]. }
  exists (o pre), (sc_name c, false, fresh (new_ss_comp lit (sc_name c))),
    (sc_name c, false, OS (restored_ss_comp rnd c) None seen' 0).
  split; [|split; [|split]].
  - unfold top_line. rewrite (get_option_opt _ _ _ 4) by reflexivity.
    rewrite ws_word by done. cbn [solid_opens]. rewrite ss_found_none; [done|].
    change (sc_name c ∉ sc_name <$> (restored_ss_comp rnd <$> pre)).
    rewrite <- list_fmap_compose. rewrite E, fmap_app, fmap_cons in Hd.
    apply NoDup_app in Hd as (_ & Hd & _). intros Hin. apply (Hd (sc_name c)); [exact Hin|by left].
  - by apply steps_pair.
  - bounds.
  - unfold solid_close, o. cbn [o_val o_save o_seen o_err put ss_comps set_ss_comps]. by rewrite Nat.add_0_r, fmap_app.
Qed.

Lemma solid_read (x : solid (D := D)) : fits_solid keywords (c_opts (solid_cls lit)) x ->
  let z := lit "0" in
  exists seen, steps (solid_line lit) (fresh (set_ss_p [z; z; z; z] (new_solid lit (ss_name x))), None) (solid_lines rnd x)
    = Some (OS (restored_solid rnd x) (Some 16) seen 0, None).
Proof.
  intros (Hf & Hc & Hd & Hp & Ht) z.
  destruct (solid_comps (set_ss_p [z; z; z; z] (new_solid lit (ss_name x))) (ss_comps x) [] 0 Hc Hd) as (s' & Hs & Hr).
  assert (exists a b c d, ss_p x = [a; b; c; d]) as (a & b & c & d & Ep).
  { destruct (ss_p x) as [|a [|b [|c [|d [|]]]]]; try discriminate. by eexists _, _, _, _. }
  eexists. unfold solid_lines, fresh. cbn [app].
  etransitivity; [exact (steps_then _ _ _ _ _ Hs)|].
  etransitivity; [apply (steps_ready _ _ _ _ _ _ _ _ _ _ Hr); by right; left|].
  rewrite Ep. cbn [take fmap list_fmap]. pgo. rewrite <- (app_nil_r (names_lines rnd _)).
  etransitivity; [eapply parent_names; [reflexivity|lens|lens|lens|reflexivity|reflexivity|exact Ht]|].
  cbn [steps]. unfold restored_solid. rewrite Ep. reflexivity.
Qed.

Lemma ssa_solids base all seen e : ordered all ->
  Forall (fun p => p.1 = ss_name p.2 /\ fits_solid keywords (c_opts (solid_cls lit)) p.2) all ->
  let o l := OS (set_sa_list ((fun p => (p.1, restored_solid rnd p.2)) <$> l) base) None seen e in
  exists s', steps (parent_line (ssa_cls (D := D)) (ssa_opens lit) (ssa_sub lit) ssa_close)
      (o [], None) (flat_map (fun p => opt "solid_solution" (ws p.1) :: solid_lines rnd p.2) all) = Some s' /\
    ready (ssa_cls (D := D)) (ssa_opens lit) (ssa_sub lit) ssa_close ["solid_solution"; "new_def"]%string s' (o all).
Proof.
  intros Ho Hc o.
  apply (steps_components _ _ _ _ _ "solid_solution" (fun p => ws p.1) (fun p => solid_lines rnd p.2) o).
  { by left. }
  2: { apply ready_none. }
  intros pre [k c] post E.
  assert (k = ss_name c /\ fits_solid keywords (c_opts (solid_cls lit)) c) as [-> Hfc].
  { rewrite E in Hc. apply Forall_app in Hc as [_ Hc]. by apply Forall_cons in Hc as [Hc _]. }
  destruct (solid_read c Hfc) as (seen' & Hread).
  set (z := lit "0") in *.
  assert (forall p, p ∈ (fun p => (p.1, restored_solid rnd p.2)) <$> pre -> before p.1 (ss_name c)) as Hb.
  { intros p Hp. apply elem_of_list_fmap in Hp as (q & -> & Hq). exact (ordered_mid _ _ _ _ _ E Ho Hq). }
  exists (o pre), (ss_name c, (fresh (set_ss_p [z; z; z; z] (new_solid lit (ss_name c))), None)),
    (ss_name c, (OS (restored_solid rnd c) (Some 16) seen' 0, None)).
  split; [|split; [|split]].
  - unfold top_line. rewrite (get_option_opt _ _ _ 0) by reflexivity. cbn [fst].
    rewrite ws_word by apply Hfc. cbn [ssa_opens].
    change (sa_list (o_val (o pre))) with ((fun p => (p.1, restored_solid rnd p.2)) <$> pre).
    rewrite nd_find_last by done. reflexivity.
  - by apply steps_pair.
  - repeat constructor; intros; unfold ssa_sub, solid_line, parent_line, top_line; cbn [fst snd];
      rewrite get_option_unknown by reflexivity; by rewrite own_unknown.
  - unfold ssa_close, o. cbn [o_val o_save o_seen o_err sa_list set_sa_list fst snd settle]. rewrite !Nat.add_0_r.
    rewrite nd_set_last by done. by rewrite fmap_app.
Qed.

Lemma ssa_read (x : ss_assemblage (D := D)) :
  fits_ssa keywords (c_opts (solid_cls lit)) (c_opts (ssa_cls (D := D))) x ->
  exists y, read_ssa lit (sa_n x) (sa_text x) (ssa_lines rnd x) = (y, 0) /\ restored_ssa rnd x y.
Proof.
  intros (Ho & Hc & Ht).
  destruct (ssa_solids (new_ssa (D := D) (sa_n x) (sa_text x)) (sa_list x) [] 0 Ho Hc) as (s' & Hs & Hr).
  eassert (steps (parent_line ssa_cls (ssa_opens lit) (ssa_sub lit) ssa_close)
    (fresh (new_ssa (sa_n x) (sa_text x)), None) (ssa_lines rnd x) = Some _) as Hst.
  { unfold ssa_lines, fresh. cbn [app].
    etransitivity; [exact (steps_then _ _ _ _ _ Hs)|].
    etransitivity; [apply (steps_ready _ _ _ _ _ _ _ _ _ _ Hr); by right; left|].
    pgo. rewrite <- (app_nil_r (names_lines rnd _)).
    erewrite parent_names; [|reflexivity|lens|lens|lens|reflexivity|reflexivity|exact Ht]. reflexivity. }
  unfold read_ssa. rewrite (steps_run _ _ _ _ Hst).
  eexists. split; [reflexivity|]. eexists. split; [apply trim_stripped|]. reflexivity.
Qed.
End Solids.

Section Surfaces.
Context {D : Type} (dcmp : D -> D -> comparison) (lit : string -> D) (rnd : D -> D).

Lemma surf_comp_read (x : surf_comp (D := D)) : fits_surf_comp keywords (c_opts (surf_comp_cls lit)) x ->
  exists seen, steps (own_line (surf_comp_cls lit)) (fresh (new_surf_comp lit (uc_formula x))) (surf_comp_lines rnd x)
    = Some (OS (restored_surf_comp rnd x) (Some 8) seen 0) /\
  forall v sv e, missing (surf_comp_cls lit) (OS v sv seen e) = 0.
Proof.
  intros (Hf & Ht & Hc & Hm & Hp & Hr). unfold surf_comp_lines, fresh. cbn [app]. go.
  rewrite !ws_word by done.
  destruct Hp as [Hp|Hp]; [rewrite Hp, opt_word_none|rewrite opt_word_some by done]; cbn [app]; go;
  (destruct Hr as [Hr|Hr]; [rewrite Hr, opt_word_none|rewrite opt_word_some by done]); cbn [app]; go;
  (erewrite (own_names rnd); [|reflexivity|lens|lens|lens|reflexivity|reflexivity|exact Ht]);
  eexists; (split; [unfold restored_surf_comp; rewrite ?Hp, ?Hr; reflexivity|intros; reflexivity]).
Qed.

Lemma surf_gmap (l : list (D * surf_dl)) x sv seen :
  StronglySorted (fun p q => dcmp (rnd q.1) (rnd p.1) = Gt) l -> uh_g x = [] ->
  exists seen', (forall j, existsb (Nat.eqb j) seen = true -> existsb (Nat.eqb j) seen' = true) /\
  steps (own_line (surf_charge_cls dcmp lit)) (OS x sv seen 0)
    ((fun p => opt "g_map" [num rnd p.1; num rnd (dl_g p.2); num rnd (dl_dg p.2); num rnd (dl_psi p.2)]) <$> l)
  = Some (OS (set_uh_g ((fun p => (rnd p.1, SurfDL (rnd (dl_g p.2)) (rnd (dl_dg p.2)) (rnd (dl_psi p.2)))) <$> l) x)
       sv seen' 0).
Proof.
  set (f := fun p : D * surf_dl => (rnd p.1, SurfDL (rnd (dl_g p.2)) (rnd (dl_dg p.2)) (rnd (dl_psi p.2)))).
  assert (forall acc y seen, uh_g y = acc -> StronglySorted (fun p q => dcmp (rnd q.1) (rnd p.1) = Gt) l ->
    (forall p q, p ∈ acc -> q ∈ l -> dcmp (rnd q.1) p.1 = Gt) ->
    exists seen', (forall j, existsb (Nat.eqb j) seen = true -> existsb (Nat.eqb j) seen' = true) /\
    steps (own_line (surf_charge_cls dcmp lit)) (OS y sv seen 0)
      ((fun p => opt "g_map" [num rnd p.1; num rnd (dl_g p.2); num rnd (dl_dg p.2); num rnd (dl_psi p.2)]) <$> l)
    = Some (OS (set_uh_g (acc ++ (f <$> l)) y) sv seen' 0)) as H.
  { clear x seen. induction l as [|[k v] l IH]; intros acc y seen Hy Ho Hb.
    { exists seen. split; [done|]. cbn [fmap list_fmap steps]. rewrite app_nil_r, <- Hy. by destruct y. }
    apply StronglySorted_inv in Ho as [Ho Hf]. rewrite Forall_forall in Hf. rewrite !fmap_cons. cbn [fst snd].
    erewrite own_go; [|reflexivity|reflexivity]. unfold num at 1 2 3. cbn [next].
    assert (kset dcmp (rnd k) (SurfDL (rnd (dl_g v)) (rnd (dl_dg v)) (rnd (dl_psi v))) (uh_g y) = acc ++ [f (k, v)]) as ->.
    { rewrite Hy. apply kset_last. intros p Hp. apply (Hb p (k, v)); [done|by left]. }
    destruct (IH (acc ++ [f (k, v)]) (set_uh_g (acc ++ [f (k, v)]) y) (saw 15 seen)) as (seen' & H1 & H2); [done|done| |].
    { intros p q Hp Hq. apply elem_of_app in Hp as [Hp|Hp]; [apply Hb; [done|by right]|].
      apply elem_of_list_singleton in Hp as ->. by apply (Hf q). }
    exists seen'. split.
    { intros j Hj. apply H1. unfold saw. destruct (existsb (Nat.eqb 15) seen); [done|]. cbn [existsb].
      by rewrite Hj, orb_true_r. }
    etransitivity; [exact H2|]. rewrite <- app_assoc. by destruct y. }
  intros Ho Hx. destruct (H [] x seen Hx Ho) as (seen' & H1 & H2); [by intros p q ?%elem_of_nil|]. by exists seen'.
Qed.

Lemma missing_more {A} (c : cls (D := D) A) seen seen' : (forall v sv e, missing c (OS v sv seen e) = 0) ->
  (forall j, existsb (Nat.eqb j) seen = true -> existsb (Nat.eqb j) seen' = true) ->
  forall v' sv' e', missing c (OS v' sv' seen' e') = 0.
Proof.
  unfold missing. cbn [o_seen]. intros H1 H2 v _ _. specialize (H1 v None 0). induction (c_need c) as [|i l IH]; [done|].
  revert H1. rewrite !filter_cons. destruct (existsb (Nat.eqb i) seen) eqn:E.
  - rewrite decide_False by done. rewrite decide_False; [done|]. by rewrite (H2 i E).
  - by rewrite decide_True.
Qed.

Lemma surf_charge_read (x : surf_charge (D := D)) :
  fits_surf_charge dcmp rnd keywords (c_opts (surf_charge_cls dcmp lit)) x ->
  exists seen sv, steps (own_line (surf_charge_cls dcmp lit)) (fresh (new_surf_charge lit (uh_name x)))
      (surf_charge_lines rnd x) = Some (OS (restored_surf_charge rnd x) sv seen 0) /\
  forall v sv e, missing (surf_charge_cls dcmp lit) (OS v sv seen e) = 0.
Proof.
  intros (Hf & Ht & Hi & Hg). unfold surf_charge_lines, fresh. cbn [app]. go.
  rewrite steps_app. erewrite (own_names rnd); [|reflexivity|lens|lens|lens|reflexivity|reflexivity|exact Ht].
  cbn [mbind option_bind].
  case_decide as Es.
  - cbn [app]. go.
    edestruct surf_gmap as (seen' & H1 & H2); [exact Hg| |].
    2: { eexists seen', _. split; [etransitivity; [exact H2|]|].
         + unfold restored_surf_charge. destruct (uh_species x); [reflexivity|discriminate].
         + eapply missing_more; [|exact H1]. intros; reflexivity. }
    reflexivity.
  - cbn [app]. go1. rewrite steps_app.
    erewrite (own_imap rnd); [|reflexivity|lens|lens|lens|reflexivity|reflexivity|exact Hi]. cbn [mbind option_bind app]. go.
    edestruct surf_gmap as (seen' & H1 & H2); [exact Hg| |].
    2: { eexists seen', _. split; [etransitivity; [exact H2|reflexivity]|].
         eapply missing_more; [|exact H1]. intros; reflexivity. }
    reflexivity.
Qed.

Lemma steps_inl k c ls c' : steps (own_line (surf_comp_cls lit)) c ls = Some c' ->
  steps (surface_sub dcmp lit) (inl (k, c)) ls = Some (inl (k, c')).
Proof.
  revert c. induction ls as [|l ls IH]; intros c; cbn [steps]; [by intros [= ->]|].
  case_decide; [apply IH|]. cbn [surface_sub fst snd]. destruct (own_line _ c l) as [c1|]; [|done].
  cbn [option_map mbind option_bind]. apply IH.
Qed.
Lemma steps_inr k c ls c' : steps (own_line (surf_charge_cls dcmp lit)) c ls = Some c' ->
  steps (surface_sub dcmp lit) (inr (k, c)) ls = Some (inr (k, c')).
Proof.
  revert c. induction ls as [|l ls IH]; intros c; cbn [steps]; [by intros [= ->]|].
  case_decide; [apply IH|]. cbn [surface_sub fst snd]. destruct (own_line _ c l) as [c1|]; [|done].
  cbn [option_map mbind option_bind]. apply IH.
Qed.

Notation bnd := ["component"; "charge_component"; "new_def"]%string.
Lemma surface_comps base all seen e :
  Forall (fits_surf_comp keywords (c_opts (surf_comp_cls lit))) all -> distinct (uc_formula <$> all) ->
  let o l := OS (set_su_comps (restored_surf_comp rnd <$> l) base) None seen e in
  exists s', steps (parent_line (surface_cls (D := D) lit) (surface_opens lit) (surface_sub dcmp lit) (surface_close dcmp lit))
      (o [], None) (flat_map (fun c => opt "component" (ws (uc_formula c)) :: surf_comp_lines rnd c) all) = Some s' /\
    ready (surface_cls (D := D) lit) (surface_opens lit) (surface_sub dcmp lit) (surface_close dcmp lit) bnd s' (o all).
Proof.
  intros Hc Hd o. apply (steps_components _ _ _ _ _ "component" (fun c => ws (uc_formula c)) (surf_comp_lines rnd) o).
  { by left. }
  2: { apply ready_none. }
  intros pre c post E.
  assert (fits_surf_comp keywords (c_opts (surf_comp_cls lit)) c) as Hfc.
  { rewrite E in Hc. apply Forall_app in Hc as [_ Hc]. by apply Forall_cons in Hc as [Hc _]. }
  destruct (surf_comp_read c Hfc) as (seen' & Hread & Hmiss).
  exists (o pre), (inl (uc_formula c, false, fresh (new_surf_comp lit (uc_formula c)))),
    (inl (uc_formula c, false, OS (restored_surf_comp rnd c) (Some 8) seen' 0)).
  split; [|split; [|split]].
  - unfold top_line. rewrite (get_option_opt _ _ _ 5) by reflexivity.
    rewrite ws_word by apply Hfc. cbn [surface_opens]. rewrite named_found_none; [done|].
    change (lows (uc_formula c) ∉ (fun y => lows (uc_formula y)) <$> (restored_surf_comp rnd <$> pre)).
    rewrite <- list_fmap_compose. by apply (distinct_pre uc_formula _ _ _ _ E).
  - by apply steps_inl.
  - repeat constructor; intros; cbn [surface_sub fst snd]; by rewrite own_unknown.
  - unfold surface_close, o. cbn [o_val o_save o_seen o_err put su_comps set_su_comps].
    by rewrite Hmiss, !Nat.add_0_r, fmap_app.
Qed.
Lemma surface_charges base all seen e s :
  Forall (fits_surf_charge dcmp rnd keywords (c_opts (surf_charge_cls dcmp lit))) all -> distinct (uh_name <$> all) ->
  let o l := OS (set_su_charges (restored_surf_charge rnd <$> l) base) None seen e in
  ready (surface_cls (D := D) lit) (surface_opens lit) (surface_sub dcmp lit) (surface_close dcmp lit) bnd s (o []) ->
  exists s', steps (parent_line (surface_cls (D := D) lit) (surface_opens lit) (surface_sub dcmp lit) (surface_close dcmp lit))
      s (flat_map (fun c => opt "charge_component" (ws (uh_name c)) :: surf_charge_lines rnd c) all) = Some s' /\
    ready (surface_cls (D := D) lit) (surface_opens lit) (surface_sub dcmp lit) (surface_close dcmp lit) bnd s' (o all).
Proof.
  intros Hc Hd o Hr.
  apply (steps_components _ _ _ _ _ "charge_component" (fun c => ws (uh_name c)) (surf_charge_lines rnd) o).
  { right; by left. }
  2: { exact Hr. }
  intros pre c post E.
  assert (fits_surf_charge dcmp rnd keywords (c_opts (surf_charge_cls dcmp lit)) c) as Hfc.
  { rewrite E in Hc. apply Forall_app in Hc as [_ Hc]. by apply Forall_cons in Hc as [Hc _]. }
  destruct (surf_charge_read c Hfc) as (seen' & sv & Hread & Hmiss).
  exists (o pre), (inr (uh_name c, false, fresh (new_surf_charge lit (uh_name c)))),
    (inr (uh_name c, false, OS (restored_surf_charge rnd c) sv seen' 0)).
  split; [|split; [|split]].
  - unfold top_line. rewrite (get_option_opt _ _ _ 6) by reflexivity.
    rewrite ws_word by apply Hfc. cbn [surface_opens]. rewrite named_found_none; [done|].
    change (lows (uh_name c) ∉ (fun y => lows (uh_name y)) <$> (restored_surf_charge rnd <$> pre)).
    rewrite <- list_fmap_compose. by apply (distinct_pre uh_name _ _ _ _ E).
  - by apply steps_inr.
  - repeat constructor; intros; cbn [surface_sub fst snd]; by rewrite own_unknown.
  - unfold surface_close, o. cbn [o_val o_save o_seen o_err put su_charges set_su_charges].
    by rewrite Hmiss, !Nat.add_0_r, fmap_app.
Qed.

Lemma distinct_nodup {X} (name : X -> string) (l : list X) : distinct (name <$> l) -> NoDup (name <$> l).
Proof.
  unfold distinct. induction (name <$> l) as [|w k IH]; rewrite ?fmap_cons; intros H; [constructor|].
  apply NoDup_cons in H as [H1 H2]. apply NoDup_cons. split; [|by apply IH].
  intros H. apply H1. by apply elem_of_list_fmap_1.
Qed.

Lemma surface_no_comps (y : surface (D := D)) : su_comps y = [] -> set_su_comps [] y = y.
Proof. destruct y. by intros [= ->]. Qed.
Lemma surface_no_charges (y : surface (D := D)) : su_charges y = [] -> set_su_charges [] y = y.
Proof. destruct y. by intros [= ->]. Qed.

Lemma surface_base n text ty dl only correct thick debye visc limit :
  set_su_limit limit (set_su_visc visc (set_su_debye debye (set_su_thick thick (set_su_correct correct
    (set_su_only only (set_su_dl dl (set_su_type ty (new_surface (D := D) lit n text))))))))
  = Surface n n (trim_left text) [] [] false true ty dl 0%Z only thick debye visc false limit correct false []
      false (-999)%Z.
Proof using. reflexivity. Qed.

Lemma surface_read (x : surface (D := D)) :
  fits_surface dcmp rnd keywords (c_opts (surf_comp_cls lit)) (c_opts (surf_charge_cls dcmp lit)) x ->
  exists y, read_surface dcmp lit (su_n x) (su_text x) (surface_lines rnd x) = (y, 0) /\ restored_surface rnd x y.
Proof.
  intros (Hc & Hd & Hc2 & Hd2 & Ht).
  set (base := Surface (su_n x) (su_n x) (trim_left (su_text x)) [] [] false true (su_type x) (su_dl x) 0%Z
    (su_only x) (rnd (su_thick x)) (rnd (su_debye x)) (rnd (su_visc x)) false (rnd (su_limit x)) (su_correct x)
    false [] false (-999)%Z).
  destruct (surface_comps base (su_comps x) [12; 11; 10; 4; 19; 2; 8; 7] 0 Hc Hd) as (s1 & Hs1 & Hr1).
  destruct (surface_charges (set_su_comps (restored_surf_comp rnd <$> su_comps x) base) (su_charges x)
    [12; 11; 10; 4; 19; 2; 8; 7] 0 s1 Hc2 Hd2) as (s2 & Hs2 & Hr2).
  { cbn [fmap list_fmap]. rewrite surface_no_charges by reflexivity. exact Hr1. }
  cbn [fmap list_fmap] in Hs1. rewrite surface_no_comps in Hs1 by reflexivity.
  unfold base in *. clear base. cbn [set_su_charges set_su_comps] in *.
  eassert (steps (parent_line (surface_cls lit) (surface_opens lit) (surface_sub dcmp lit) (surface_close dcmp lit))
    (fresh (new_surface lit (su_n x) (su_text x)), None) (surface_lines rnd x) = Some _) as Hst.
  { unfold surface_lines, fresh. cbn [app]. do 8 pgo1. rewrite surface_base.
    etransitivity; [exact (steps_then _ _ _ _ _ Hs1)|].
    etransitivity; [exact (steps_then _ _ _ _ _ Hs2)|].
    etransitivity; [apply (steps_ready _ _ _ _ _ _ _ _ _ _ Hr2); by right; right; left|].
    unfold set_su_charges, set_su_comps. cbn [su_n su_end su_text su_comps su_charges su_new su_tidied su_type su_dl su_units su_only su_thick su_debye su_visc su_calc su_limit su_correct su_trans su_totals su_equil su_soln].
    pgo. rewrite Ht. reflexivity. }
  unfold read_surface. rewrite (steps_run _ _ _ _ Hst).
  eexists. split; [reflexivity|]. eexists _, _, _. split; [apply trim_stripped|].
  split; [|split; [|reflexivity]]; apply sort_by_sorted.
  - change (NoDup (uc_formula <$> (restored_surf_comp rnd <$> su_comps x))).
    rewrite <- list_fmap_compose. by apply distinct_nodup.
  - change (NoDup (uh_name <$> (restored_surf_charge rnd <$> su_charges x))).
    rewrite <- list_fmap_compose. by apply distinct_nodup.
Qed.
End Surfaces.

Section Solutions.
Context {D : Type} (lit : string -> D) (rnd : D -> D).

Lemma element_before n : valence n -> before (element n) n.
Proof.
  unfold valence. induction n as [|c n IH]; cbn [element]; [done|]. case_decide as E; [done|].
  intros H. cbn [before]. right. split; [done|]. apply IH. congruence.
Qed.
Lemma merge_last (l : nmap D) n v : ordered l -> (forall p, p ∈ l -> before p.1 n) ->
  (valence n -> element n <> EmptyString /\ forall m w, (m, w) ∈ l -> m <> drop_last (element n)) ->
  merge_redox l [(n, v)] = l ++ [(n, v)].
Proof.
  intros Ho Hb Hv. unfold merge_redox. cbn [fold_left]. apply ordered_ext.
  - by apply merge_one_ordered.
  - by apply ordered_snoc.
  - intros m w. rewrite elem_of_app, elem_of_list_singleton.
    assert ((m, w) ∈ l -> m <> n) as Hne.
    { intros H ->. apply (before_irrefl n), (Hb _ H). }
    destruct (decide (element n = n)) as [E|E].
    + rewrite merge_one_bare by (done || by intros H; apply H). split.
      * intros [[-> ->]|(_ & _ & H)]; [by right|by left].
      * intros [H|H]; [|injection H as -> ->; by left]. right. split; [by apply Hne|]. split; [|done].
        intros [H1 H2]. apply element_before in H1. rewrite H2 in H1.
        eapply before_asym; [exact H1|]. apply (Hb _ H).
    + destruct (Hv E) as [H1 H2]. rewrite merge_one_redox by done. split.
      * intros [[-> ->]|(_ & _ & H)]; [by right|by left].
      * intros [H|H]; [|injection H as -> ->; by left]. right. split; [by apply Hne|]. split; [|done]. by apply (H2 m w).
Qed.

Lemma own_totals (l : nmap D) x seen e :
  existsb (Nat.eqb 0) seen = true -> so_totals x = [] -> plain_names keywords (c_opts (solution_cls lit)) l ->
  (forall n m, named l n -> named l m -> valence m -> element m <> EmptyString /\ n <> drop_last (element m)) ->
  steps (own_line (solution_cls lit)) (OS x (Some 0) seen e) (names_lines rnd l)
  = Some (OS (set_so_totals (rnds rnd l) x) (Some 0) seen e).
Proof.
  intros Hseen Hx [Ho Hp] Hg.
  assert (forall acc y, so_totals y = acc -> ordered acc -> (forall p q, p ∈ acc -> q ∈ l -> before p.1 q.1) ->
    (forall n v m, (n, v) ∈ acc -> named l m -> valence m -> n <> drop_last (element m)) ->
    steps (own_line (solution_cls lit)) (OS y (Some 0) seen e) (names_lines rnd l)
    = Some (OS (set_so_totals (acc ++ rnds rnd l) y) (Some 0) seen e)) as H.
  { clear Hx x. induction l as [|[n v] l IH]; intros acc y Hy Hacc Hb Hc; cbn [names_lines rnds fmap list_fmap].
    { cbn [steps]. rewrite app_nil_r, <- Hy. by destruct y. }
    pose proof (Hp n v (elem_of_list_here _ _)) as Hn. cbn [fst snd].
    rewrite ws_word by apply Hn. cbn [app]. rewrite steps_cons by done.
    erewrite own_plain; [|by apply get_option_plain|reflexivity|done|done].
    cbn [mbind option_bind]. apply ordered_cons in Ho as [Ho Hb2].
    assert (named ((n, v) :: l) n) as Hnn. { exists v. by left. }
    rewrite Hy. rewrite merge_last; [|done| |].
    2: { intros p Hpp. apply (Hb p (n, v)); [done|by left]. }
    2: { intros Hv. split; [by apply (Hg n n)|]. intros m w Hm. by apply (Hc m w). }
    rewrite (IH Ho) with (acc := acc ++ [(n, rnd v)]).
    - rewrite <- app_assoc. by destruct y.
    - intros m w Hm. apply (Hp m w). by right.
    - intros a m [u Ha] [w Hm]. apply Hg; [exists u|exists w]; by right.
    - done.
    - apply ordered_snoc; [done|]. intros p Hpp. apply (Hb p (n, v)); [done|by left].
    - intros p q Hpp Hq. apply elem_of_app in Hpp as [Hpp|Hpp]; [apply Hb; [done|by right]|].
      apply elem_of_list_singleton in Hpp as ->. destruct q as [m w]. by apply (Hb2 m w).
    - intros a u m Ha [w Hm] Hv. apply elem_of_app in Ha as [Ha|Ha]; [apply (Hc a u m Ha); [exists w; by right|done]|].
      apply elem_of_list_singleton in Ha. injection Ha as -> ->. apply (Hg n m Hnn); [exists w; by right|done]. }
  rewrite (H [] x Hx); [done|apply ordered_nil| |]; by intros ?? ?%elem_of_nil || by intros ??? ?%elem_of_nil.
Qed.

Lemma solution_own s l s' : own_line (solution_cls lit) s l = Some s' -> solution_line lit s l = Some s'.
Proof. intros H. unfold solution_line. by rewrite H. Qed.
Lemma steps_solution s ls s' : steps (own_line (solution_cls lit)) s ls = Some s' ->
  steps (solution_line lit) s ls = Some s'.
Proof.
  revert s. induction ls as [|l ls IH]; intros s; cbn [steps]; [done|].
  case_decide; [apply IH|]. destruct (own_line _ s l) as [s1|] eqn:E; [|done].
  rewrite (solution_own _ _ _ E). cbn [mbind option_bind]. apply IH.
Qed.

Lemma imap_part o i get set (l : list (Z * D)) x sv seen ls :
  dash_code (c_opts (solution_cls lit)) o = Opt i ->
  (forall a y, c_act (solution_cls lit) i a y = saved (a_imap get set a y)) ->
  (forall v y, get (set v y) = v) -> (forall y, set (get y) y = y) -> (forall v w y, set v (set w y) = set v y) ->
  get x = [] -> rising l ->
  exists sv' seen', (forall j, existsb (Nat.eqb j) seen = true -> existsb (Nat.eqb j) seen' = true) /\
  steps (own_line (solution_cls lit)) (OS x sv seen 0)
    ((if decide (length l = 0) then [] else opt o [] :: imap_lines rnd l) ++ ls)
  = steps (own_line (solution_cls lit)) (OS (set (irnds rnd l) x) sv' seen' 0) ls.
Proof.
  intros H1 H2 Hgs Hsg Hss Hx Hl. case_decide as E.
  - exists sv, seen. split; [done|]. destruct l; [|done]. cbn [app]. rewrite <- (Hsg x) at 1. by rewrite Hx.
  - assert (c_act (solution_cls lit) i [] x = (x, 0, Save)) as Ha by by rewrite H2.
    cbn [app]. exists (Some i), (saw i seen). split.
    + intros j Hj. unfold saw. destruct (existsb (Nat.eqb i) seen); [done|]. cbn [existsb]. by rewrite Hj, orb_true_r.
    + rewrite (own_go _ _ _ _ _ _ _ _ _ _ _ H1 Ha). cbn [next]. apply steps_then.
      apply (own_imap rnd _ i get); try done.
      unfold saw. destruct (existsb (Nat.eqb i) seen) eqn:Ei; [done|]. cbn [existsb]. by rewrite Nat.eqb_refl.
Qed.

Lemma solution_read (x : solution (D := D)) : fits_solution keywords (c_opts (solution_cls lit)) x ->
  exists y, read_solution lit (so_n x) (so_text x) (solution_lines rnd x) = (y, 0) /\ restored_solution rnd x y.
Proof.
  intros (Ht & Ha & Hg & Hv & Hi & H1 & H2 & H3).
  assert (exists r sv seen, steps (own_line (solution_cls lit)) (fresh (new_solution lit (so_n x) (so_text x)))
    (solution_lines rnd x) = Some (OS r sv seen 0) /\ restored_solution rnd x r /\
    missing (solution_cls lit) (OS r sv seen 0) = 0) as (r & sv & seen & Hst & Hr & Hm).
  { unfold solution_lines, fresh. cbn [app]. rewrite Hi. cbn [flat_map app]. go.
    rewrite steps_app, own_totals by (reflexivity || done). cbn [mbind option_bind]. go.
    rewrite steps_app. erewrite (own_names rnd); [|reflexivity|lens|lens|lens|reflexivity|reflexivity|exact Ha].
    cbn [mbind option_bind]. go.
    rewrite steps_app. erewrite (own_names rnd); [|reflexivity|lens|lens|lens|reflexivity|reflexivity|exact Hg].
    cbn [mbind option_bind].
    edestruct (imap_part "species_map" 24 so_species set_so_species) as (sv1 & seen1 & M1 & E1);
      [reflexivity|reflexivity|lens|lens|lens| |exact H1|rewrite E1; clear E1]; [reflexivity|].
    edestruct (imap_part "log_gamma_map" 25 so_loggam set_so_loggam) as (sv2 & seen2 & M2 & E2);
      [reflexivity|reflexivity|lens|lens|lens| |exact H2|rewrite E2; clear E2]; [reflexivity|].
    match goal with |- context [steps _ _ ?ls] => rewrite <- (app_nil_r ls) end.
    edestruct (imap_part "log_molalities_map" 27 so_logmol set_so_logmol) as (sv3 & seen3 & M3 & E3);
      [reflexivity|reflexivity|lens|lens|lens| |exact H3|rewrite E3; clear E3]; [reflexivity|].
    eexists _, sv3, seen3. split; [reflexivity|]. split.
    - eexists. split; [apply trim_stripped|]. reflexivity.
    - eapply missing_more; [|intros j Hj; apply M3, M2, M1, Hj]. intros; reflexivity. }
  exists r. split; [|done]. unfold read_solution. rewrite (steps_run _ _ _ _ (steps_solution _ _ _ Hst)).
  cbn [fst o_val o_err]. by rewrite Hm.
Qed.
End Solutions.

Section Others.
Context {D : Type} (lit : string -> D) (rnd : D -> D).

Lemma mixture_read (x : mixture (D := D)) : fits_mixture x ->
  exists y, read_mixture (mi_n x) (mi_text x) (mixture_lines rnd x) = (y, 0) /\ restored_mixture rnd x y.
Proof.
  intros Hx. unfold read_mixture, mixture_lines.
  erewrite steps_run; [|apply (own_imap rnd mixture_cls 0 mi_comps set_mi_comps); [reflexivity|lens|lens|lens|reflexivity|reflexivity|exact Hx]].
  eexists. split; [reflexivity|]. eexists. split; [apply trim_stripped|]. reflexivity.
Qed.

Lemma reaction_read (x : reaction (D := D)) : fits_reaction keywords (c_opts (reaction_cls (D := D))) x ->
  exists y, read_reaction (rx_n x) (rx_text x) (reaction_lines rnd x) = (y, 0) /\ restored_reaction rnd x y.
Proof.
  intros (Hu & Hl & He).
  eassert (steps (own_line reaction_cls) (fresh (new_reaction (rx_n x) (rx_text x))) (reaction_lines rnd x) = Some _) as Hst.
  { unfold reaction_lines, fresh. cbn [app]. go.
    rewrite steps_app. erewrite (own_names rnd); [|reflexivity|lens|lens|lens|reflexivity|reflexivity|exact Hl].
    cbn [mbind option_bind app]. go.
    rewrite steps_app. erewrite (own_numbers rnd _ 3 (fun v y => set_rx_steps (rx_steps y ++ v) y));
      [|reflexivity|intros []; cbn; by rewrite app_nil_r|intros ? ? []; cbn; by rewrite <- app_assoc|reflexivity].
    cbn [mbind option_bind app]. rewrite ws_word by done. go.
    erewrite (own_names rnd); [|reflexivity|lens|lens|lens|reflexivity|reflexivity|exact He]. reflexivity. }
  unfold read_reaction. rewrite (steps_run _ _ _ _ Hst).
  eexists. split; [reflexivity|]. eexists. split; [apply trim_stripped|]. reflexivity.
Qed.

Lemma temperature_read (x : Transfer.Model.steps (D := D)) :
  exists y, read_steps temperature_cls (st_n x) (st_text x) (temperature_lines rnd x) = (y, 0) /\
    restored_temperature rnd x y.
Proof.
  eassert (steps (own_line temperature_cls) (fresh (Steps (st_n x) (st_n x) (trim_left (st_text x)) [] 0%Z false))
    (temperature_lines rnd x) = Some _) as Hst.
  { unfold temperature_lines, fresh. cbn [app]. go.
    erewrite (own_numbers rnd _ 0 (fun v y => set_st_list (st_list y ++ v) y));
      [|reflexivity|intros []; cbn; by rewrite app_nil_r|intros ? ? []; cbn; by rewrite <- app_assoc|reflexivity].
    reflexivity. }
  unfold read_steps. rewrite (steps_run _ _ _ _ Hst).
  eexists. split; [reflexivity|]. eexists. split; [apply trim_stripped|]. reflexivity.
Qed.
Lemma pressure_read (x : Transfer.Model.steps (D := D)) :
  exists y, read_steps pressure_cls (st_n x) (st_text x) (pressure_lines rnd x) = (y, 0) /\
    restored_pressure rnd x y.
Proof.
  eassert (steps (own_line pressure_cls) (fresh (Steps (st_n x) (st_n x) (trim_left (st_text x)) [] 0%Z false))
    (pressure_lines rnd x) = Some _) as Hst.
  { unfold pressure_lines, fresh. cbn [app]. go.
    erewrite (own_numbers rnd _ 0 (fun v y => set_st_list (st_list y ++ v) y));
      [|reflexivity|intros []; cbn; by rewrite app_nil_r|intros ? ? []; cbn; by rewrite <- app_assoc|reflexivity].
    reflexivity. }
  unfold read_steps. rewrite (steps_run _ _ _ _ Hst).
  eexists. split; [reflexivity|]. eexists. split; [apply trim_stripped|]. reflexivity.
Qed.
End Others.

Section Whole.
Context {D : Type} (dcmp : D -> D -> comparison) (lit : string -> D) (rnd : D -> D).

Lemma bodies_lines (ls : list (list tok)) (tl : list (phys (D := D))) :
  match tl with [] | Head _ _ _ :: _ => True | _ => False end -> bodies ((Body <$> ls) ++ tl) = ls.
Proof. intros H. induction ls as [|l ls IH]; [by destruct tl as [|[]]|]. exact (f_equal (cons l) IH). Qed.
Lemma read_file_bodies (ls : list (list tok)) tl st :
  read_file dcmp lit ((Body <$> ls) ++ tl) st = read_file dcmp lit tl st.
Proof. induction ls as [|l ls IH]; [done|]. exact IH. Qed.
Lemma dump_head es : match dump (D := D) rnd es with [] | Head _ _ _ :: _ => True | _ => False end.
Proof. by destruct es as [|[] es]. Qed.

Definition enter (n : Z) (e : entity (D := D)) (r : reactants) : reactants :=
  match e with
  | ESolution x => put_sol n x r | EExchange x => put_ex n x r | EGas x => put_gas n x r
  | EKinetics x => put_kin n x r | EPP x => put_pp n x r | ESS x => put_ss n x r | ESurface x => put_surf n x r
  | EMix x => put_mix n x r | EReaction x => put_react n x r | ETemp x => put_temp n x r | EPress x => put_press n x r
  end.

Lemma read_dumped e tl r n0 : fits dcmp rnd keywords e ->
  match tl with [] | Head _ _ _ :: _ => True | _ => False end ->
  exists e', restored lit rnd e e' /\
    read_file dcmp lit (dump_entity rnd e ++ tl) (r, n0) = read_file dcmp lit tl (enter (place e).2 e' r, n0).
Proof.
  intros Hf Ht. destruct e as [x|x|x|x|x|x|x|x|x|x|x]; cbn [dump_entity app read_file];
    rewrite bodies_lines by done; rewrite read_file_bodies; unfold read_one; cbn [fits] in Hf;
    repeat (rewrite decide_False by done); rewrite decide_True by done.
  - destruct (solution_read lit rnd x Hf) as (y & H1 & H2).
    exists (ESolution y). split; [exact H2|]. rewrite H1. cbn [fst snd]. by rewrite Nat.add_0_r.
  - destruct (exchange_read lit rnd x Hf) as (y & H1 & H2).
    exists (EExchange y). split; [exact H2|]. rewrite H1. cbn [fst snd]. by rewrite Nat.add_0_r.
  - destruct (gas_phase_read lit rnd x Hf) as (y & H1 & H2).
    exists (EGas y). split; [exact H2|]. rewrite H1. cbn [fst snd]. by rewrite Nat.add_0_r.
  - destruct (kinetics_read lit rnd x Hf) as (y & H1 & H2).
    exists (EKinetics y). split; [exact H2|]. rewrite H1. cbn [fst snd]. by rewrite Nat.add_0_r.
  - destruct (pp_read lit rnd x Hf) as (y & H1 & H2).
    exists (EPP y). split; [exact H2|]. rewrite H1. cbn [fst snd]. by rewrite Nat.add_0_r.
  - destruct (ssa_read lit rnd x Hf) as (y & H1 & H2).
    exists (ESS y). split; [exact H2|]. rewrite H1. cbn [fst snd]. by rewrite Nat.add_0_r.
  - destruct (surface_read dcmp lit rnd x Hf) as (y & H1 & H2).
    exists (ESurface y). split; [exact H2|]. rewrite H1. cbn [fst snd]. by rewrite Nat.add_0_r.
  - destruct (mixture_read rnd x Hf) as (y & H1 & H2).
    exists (EMix y). split; [exact H2|]. rewrite H1. cbn [fst snd]. by rewrite Nat.add_0_r.
  - destruct (reaction_read rnd x Hf) as (y & H1 & H2).
    exists (EReaction y). split; [exact H2|]. rewrite H1. cbn [fst snd]. by rewrite Nat.add_0_r.
  - destruct (temperature_read rnd x) as (y & H1 & H2).
    exists (ETemp y). split; [exact H2|]. rewrite H1. cbn [fst snd]. by rewrite Nat.add_0_r.
  - destruct (pressure_read rnd x) as (y & H1 & H2).
    exists (EPress y). split; [exact H2|]. rewrite H1. cbn [fst snd]. by rewrite Nat.add_0_r.
Qed.

Lemma restored_place e e' : restored lit rnd e e' -> place e' = place e.
Proof.
  destruct e as [x|x|x|x|x|x|x|x|x|x|x], e' as [y|y|y|y|y|y|y|y|y|y|y]; cbn [restored]; try done;
    unfold restored_solution, restored_exchange, restored_gas_phase, restored_kinetics, restored_pp, restored_ssa,
      restored_surface, restored_mixture, restored_reaction, restored_temperature, restored_pressure; intros H;
    repeat match type of H with _ = _ => fail 1 | _ => destruct H as [? H] end; by rewrite H.
Qed.
Lemma stored_enter n e r : stored (enter n e r) n e.
Proof. destruct e; apply lookup_insert. Qed.
Lemma stored_other n e r m e' : ((place e).1, n) <> ((place e').1, m) -> stored (enter n e r) m e' <-> stored r m e'.
Proof.
  intros H. destruct e, e'; cbn [place fst enter stored put_sol put_ex put_gas put_kin put_pp put_ss put_surf put_mix
    put_react put_temp put_press ph_sol ph_ex ph_gas ph_kin ph_pp ph_ss ph_surf ph_mix ph_react ph_temp ph_press] in *; try done; by rewrite lookup_insert_ne by congruence.
Qed.

Lemma file_read es : forall r n0, NoDup (place <$> es) -> Forall (fits dcmp rnd keywords) es ->
  exists r', read_file dcmp lit (dump rnd es) (r, n0) = (r', n0) /\
  (forall e, e ∈ es -> exists e', restored lit rnd e e' /\ stored r' (place e).2 e') /\
  (forall n e', ((place e').1, n) ∉ (place <$> es) -> stored r' n e' <-> stored r n e').
Proof.
  induction es as [|e es IH]; intros r n0 Hd Hf.
  { exists r. split; [done|]. split; [by intros ? ?%elem_of_nil|done]. }
  rewrite fmap_cons in Hd. apply NoDup_cons in Hd as [Hn Hd]. apply Forall_cons in Hf as [Hfe Hf].
  destruct (read_dumped e (dump rnd es) r n0 Hfe (dump_head es)) as (e' & Hr & He).
  destruct (IH (enter (place e).2 e' r) n0 Hd Hf) as (r' & H1 & H2 & H3).
  exists r'. split; [|split].
  - etransitivity; [exact He|exact H1].
  - intros a Ha. apply elem_of_cons in Ha as [->|Ha]; [|by apply H2].
    exists e'. split; [done|]. apply H3; [|apply stored_enter].
    rewrite (restored_place _ _ Hr). by rewrite <- surjective_pairing.
  - intros n b Hb. rewrite fmap_cons, not_elem_of_cons in Hb. destruct Hb as [Hb1 Hb2].
    rewrite H3 by done. apply stored_other. rewrite (restored_place _ _ Hr), <- surjective_pairing. congruence.
Qed.
End Whole.

Section Twice.
Context {D : Type} (lit : string -> D) (rnd : D -> D).
Hypothesis rnd_twice : forall d, rnd (rnd d) = rnd d.

Lemma rnds_twice l : rnds rnd (rnds rnd l) = rnds rnd l.
Proof.
  unfold rnds. rewrite <- list_fmap_compose. apply list_fmap_ext. intros ? p _. cbn. by rewrite rnd_twice.
Qed.
Lemma irnds_twice l : irnds rnd (irnds rnd l) = irnds rnd l.
Proof.
  unfold irnds. rewrite <- list_fmap_compose. apply list_fmap_ext. intros ? p _. cbn. by rewrite rnd_twice.
Qed.
Lemma rnd_list_twice (l : list D) : rnd <$> (rnd <$> l) = rnd <$> l.
Proof. rewrite <- list_fmap_compose. apply list_fmap_ext. intros ? p _. apply rnd_twice. Qed.
Lemma fmap_twice {A} (f : A -> A) (l : list A) : (forall a, f (f a) = f a) -> f <$> (f <$> l) = f <$> l.
Proof. intros H. rewrite <- list_fmap_compose. apply list_fmap_ext. intros ? p _. apply H. Qed.

Lemma stripped_twice s t u : stripped s t -> stripped t u -> u = t.
Proof.
  intros (_ & _ & Ht & _) (b & -> & _ & Hb). destruct b as [|c b]; [done|]. exfalso. apply Ht. cbn.
  by apply (Hb 0 c).
Qed.
Lemma sorted_same {A} (name : A -> string) l l' : StronglySorted (fun a b => before (name a) (name b)) l ->
  StronglySorted (fun a b => before (name a) (name b)) l' -> l ≡ₚ l' -> l' = l.
Proof.
  revert l'. induction l as [|a l IH]; intros l' H1 H2 Hp; [by apply Permutation_nil_l in Hp|].
  destruct l' as [|b l']; [by apply Permutation_sym, Permutation_nil_l in Hp|].
  apply StronglySorted_inv in H1 as [H1 Ha]. apply StronglySorted_inv in H2 as [H2 Hb].
  rewrite Forall_forall in Ha, Hb.
  assert (b = a) as ->.
  { assert (a ∈ b :: l') as H3 by (rewrite <- Hp; by left). assert (b ∈ a :: l) as H4 by (rewrite Hp; by left).
    apply elem_of_cons in H3 as [H3|H3]; [done|]. apply elem_of_cons in H4 as [H4|H4]; [done|].
    exfalso. apply (before_asym (name a) (name b)); [by apply Ha|by apply Hb]. }
  f_equal. apply IH; [done|done|]. by apply Permutation_cons_inv in Hp.
Qed.
Lemma sorted_twice {A} (name : A -> string) (f : A -> A) l l1 l2 : (forall a, f (f a) = f a) ->
  sorted_by name (f <$> l) l1 -> sorted_by name (f <$> l1) l2 -> l2 = l1.
Proof.
  intros Hf [P1 S1] [P2 S2]. apply (sorted_same name); [done|done|].
  rewrite <- P2. rewrite <- P1 at 2. by rewrite fmap_twice.
Qed.

Local Arguments rnds : simpl never.
Local Arguments irnds : simpl never.
Lemma restored_twice e e1 e2 : restored lit rnd e e1 -> restored lit rnd e1 e2 -> e2 = e1.
Proof.
  assert (forall c, restored_exch_comp rnd (restored_exch_comp rnd c) = restored_exch_comp rnd c) as Hex.
  { intros c. unfold restored_exch_comp. cbn. by rewrite rnds_twice, !rnd_twice. }
  assert (forall c, restored_gas_comp lit rnd (restored_gas_comp lit rnd c) = restored_gas_comp lit rnd c) as Hgc.
  { intros c. unfold restored_gas_comp. cbn. by rewrite !rnd_twice. }
  assert (forall c, restored_kin_comp rnd (restored_kin_comp rnd c) = restored_kin_comp rnd c) as Hkc.
  { intros c. unfold restored_kin_comp. cbn. by rewrite rnds_twice, rnd_list_twice, !rnd_twice. }
  assert (forall c, restored_pp_comp rnd (restored_pp_comp rnd c) = restored_pp_comp rnd c) as Hpc.
  { intros c. unfold restored_pp_comp. cbn. rewrite rnds_twice, !rnd_twice.
    by destruct (pc_dissolve c), (pc_precip c). }
  assert (forall c, restored_ss_comp rnd (restored_ss_comp rnd c) = restored_ss_comp rnd c) as Hsc.
  { intros c. unfold restored_ss_comp. cbn. by rewrite !rnd_twice. }
  assert (forall c, restored_solid rnd (restored_solid rnd c) = restored_solid rnd c) as Hso.
  { intros c. unfold restored_solid. cbn [ss_name ss_ag0 ss_ag1 ss_comps ss_a0 ss_a1 ss_misc ss_spin ss_tk ss_xb1
      ss_xb2 ss_case ss_p ss_total ss_dn ss_in ss_totals].
    by rewrite rnds_twice, rnd_list_twice, !rnd_twice, fmap_twice. }
  assert (forall c, restored_surf_comp rnd (restored_surf_comp rnd c) = restored_surf_comp rnd c) as Huc.
  { intros c. unfold restored_surf_comp. cbn. by rewrite rnds_twice, !rnd_twice. }
  assert (forall c, restored_surf_charge rnd (restored_surf_charge rnd c) = restored_surf_charge rnd c) as Huh.
  { intros c. unfold restored_surf_charge. cbn [uh_name uh_area uh_grams uh_cb uh_water uh_visc uh_free uh_la uh_cap0
      uh_cap1 uh_dl uh_s0 uh_s1 uh_s2 uh_sd uh_g uh_species].
    rewrite rnds_twice, irnds_twice, !rnd_twice. f_equal. apply fmap_twice. intros [k v]. cbn. by rewrite !rnd_twice. }
  destruct e as [x|x|x|x|x|x|x|x|x|x|x], e1 as [y|y|y|y|y|y|y|y|y|y|y]; try done; destruct e2 as [z|z|z|z|z|z|z|z|z|z|z]; try done;
    cbn [restored]; intros H1 H2; f_equal.
  - destruct H1 as (t & T1 & ->), H2 as (t2 & T2 & ->). cbn. rewrite (stripped_twice _ _ _ T1 T2).
    by rewrite !rnds_twice, !irnds_twice, !rnd_twice.
  - destruct H1 as (t & cs & T1 & C1 & ->), H2 as (t2 & cs2 & T2 & C2 & ->). cbn in T2, C2 |- *.
    by rewrite (stripped_twice _ _ _ T1 T2), (sorted_twice _ _ _ _ _ Hex C1 C2).
  - destruct H1 as (t & T1 & ->), H2 as (t2 & T2 & ->).
    cbn [gp_n gp_text gp_kind gp_total_p gp_vol gp_comps gp_new gp_equil gp_soln gp_temp gp_moles gp_vm gp_pr gp_totals] in *.
    rewrite (stripped_twice _ _ _ T1 T2). by rewrite rnds_twice, !rnd_twice, fmap_twice.
  - destruct H1 as (t & T1 & ->), H2 as (t2 & T2 & ->).
    cbn [ki_n ki_text ki_comps ki_steps ki_count ki_equal ki_divide ki_rk ki_bad ki_cvode ki_cv_steps ki_cv_order
      ki_totals] in *.
    rewrite (stripped_twice _ _ _ T1 T2), (fmap_twice (restored_kin_comp rnd)) by done.
    by rewrite rnds_twice, rnd_list_twice, !rnd_twice.
  - destruct H1 as (t & T1 & ->), H2 as (t2 & T2 & ->). cbn [pp_n pp_text pp_comps pp_elts pp_totals] in *.
    rewrite (stripped_twice _ _ _ T1 T2), !rnds_twice, fmap_twice; [done|]. intros [k v]. cbn [fst snd]. by rewrite Hpc.
  - destruct H1 as (t & T1 & ->), H2 as (t2 & T2 & ->). cbn [sa_n sa_text sa_list sa_new sa_totals] in *.
    rewrite (stripped_twice _ _ _ T1 T2), !rnds_twice, fmap_twice; [done|]. intros [k v]. cbn [fst snd]. by rewrite Hso.
  - destruct H1 as (t & cs & us & T1 & C1 & U1 & ->), H2 as (t2 & cs2 & us2 & T2 & C2 & U2 & ->). cbn in T2, C2, U2 |- *.
    rewrite (stripped_twice _ _ _ T1 T2), (sorted_twice _ _ _ _ _ Huc C1 C2), (sorted_twice _ _ _ _ _ Huh U1 U2).
    by rewrite !rnd_twice.
  - destruct H1 as (t & T1 & ->), H2 as (t2 & T2 & ->). cbn in T2 |- *. rewrite (stripped_twice _ _ _ T1 T2).
    by rewrite irnds_twice.
  - destruct H1 as (t & T1 & ->), H2 as (t2 & T2 & ->). cbn [rx_n rx_text rx_units rx_list rx_elts rx_steps rx_count rx_equal] in *.
    by rewrite (stripped_twice _ _ _ T1 T2), !rnds_twice, rnd_list_twice.
  - destruct H1 as (t & T1 & ->), H2 as (t2 & T2 & ->). cbn [st_n st_text st_list st_count st_equal] in *.
    rewrite (stripped_twice _ _ _ T1 T2), rnd_list_twice, fmap_length. by destruct (st_equal x).
  - destruct H1 as (t & T1 & ->), H2 as (t2 & T2 & ->). cbn [st_n st_text st_list st_count st_equal] in *.
    by rewrite (stripped_twice _ _ _ T1 T2), rnd_list_twice.
Qed.
End Twice.
