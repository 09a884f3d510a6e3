(** C81, C82: what the BMI class announces about a variable and what it delivers. *)
From Coq Require Import ZArith Ascii String.
From stdpp Require Import prelude.
From Verif.Base Require Import Result.
From Verif.BmiText Require Import Model Spec Proofs.
Open Scope Z_scope.

Section Props.
Context {D : Type} (zero : D) (dbytes : D -> text).
Hypothesis dbytes_size : forall d, length (dbytes d) = 8%nat.
Local Notation meta := (meta (D := D)).

Lemma copied_eq src n (b : bmi D) : 0 <= n -> (Z.to_nat n <= length src)%nat -> copied src n b = Got (take (Z.to_nat n) src) b.
Proof using. intros H1 H2. unfold copied, memcpy. by rewrite decide_True by done. Qed.

Lemma copied_whole src n (b : bmi D) : n = Z.of_nat (length src) -> copied src n b = Got src b.
Proof using. intros ->. rewrite copied_eq by lia. by rewrite Nat2Z.id, take_ge by lia. Qed.

Lemma copied_front src tl n (b : bmi D) : n = Z.of_nat (length src) -> copied (src ++ tl) n b = Got src b.
Proof using. intros ->. rewrite copied_eq; rewrite ?app_length; [|lia..]. by rewrite Nat2Z.id, take_app_le, take_ge by lia. Qed.

(** The integers. *)
Lemma deliver_int v (b : bmi D) z :
  inv b -> (forall m x, act v GetVar (b_rm b) m x = Some (b_rm b, set_i z m, x)) ->
  (forall m : meta, described v (b_rm b) m -> int_slot m) ->
  exists b1, get_void zero dbytes v b = Got (int_bytes z) b1 /\ b_rm b1 = b_rm b.
Proof using.
  intros Hi Ha Hm. pose proof (Hm _ (info_again zero v b Hi)) as (Ht & Hn & _ & Hd).
  destruct (fetch_eq zero v b Hi _ _ (Ha _ _)) as (b1 & E & Er & _ & Ex).
  exists b1. split; [|done]. unfold get_void. rewrite E. cbv zeta. rewrite Ex. cbn [x_meta m_type set_i m_nbytes m_dim m_i].
  rewrite Ht, Hn, Hd. rewrite decide_True by done. by apply copied_whole.
Qed.

Lemma deliver_names v (b : bmi D) names (f : meta -> meta) :
  inv b -> (forall m x, act v GetVar (b_rm b) m x = Some (b_rm b, f m, Exch (x_meta x) (x_string x) (x_doubles x) names)) ->
  m_type (f (info v (b_rm b) (b_meta (ready zero v b) v))) = TStrings ->
  (forall b1, fetch zero v b = (true, b1) -> x_strings (b_ex b1) = names -> x_strings (b_ex (ready zero v b1)) = names) ->
  exists w b1 b2, get_void zero dbytes v b = Got (concat (map (padded w) names)) b2 /\ b_rm b2 = b_rm b /\
    get_itemsize zero v b1 = (w, b2) /\ fetch zero v b = (true, b1) /\ b_rm b1 = b_rm b.
Proof using.
  intros Hi Ha Ht Hs.
  destruct (fetch_eq zero v b Hi _ _ (Ha _ _)) as (b1 & E & Er & Em & Ex).
  exists (m_itemsize (b_meta (ready zero v b1) v)), b1, (ready zero v b1).
  split; [|split; [by rewrite ready_rm|split; [done|split; done]]].
  unfold get_void. rewrite E. cbv zeta. rewrite Ex. cbn [x_meta]. rewrite Ht. unfold get_itemsize. cbv zeta.
  rewrite (Hs b1 E); [done|]. by rewrite Ex.
Qed.

Lemma fetch_inv v (b : bmi D) : inv b -> inv (snd (fetch zero v b)).
Proof using. intros H. apply var_fn_inv. by apply ready_inv. Qed.

Lemma deliver v (b : bmi D) :
  inv b -> reliable v (b_rm b) ->
  exists bytes b', get_void zero dbytes v b = Got bytes b' /\ b_rm b' = b_rm b /\
    forall m : meta, described v (b_rm b) m -> Z.of_nat (length bytes) = m_nbytes m /\ shows dbytes v (b_rm b) (m_itemsize m) bytes.
Proof using dbytes_size.
  intros Hi Hr. pose proof (info_again zero v b Hi) as Hde.
  destruct v; cbn [reliable] in Hr; try done.
  - (* Components *)
    destruct (deliver_names VComponents b (r_components (b_rm b)) (fun m => m) Hi ltac:(done)) as (w & b1 & b2 & G & Er & Gi & Gf & Er1).
    { by destruct Hde as [(Ht & _) _]. }
    { intros b1 Hf Hx. pose proof (fetch_inv VComponents b Hi) as Hb1. rewrite Hf in Hb1. cbn in Hb1.
      assert (m_init (b_meta b1 VComponents) = true) as Hb.
      { destruct (fetch_eq zero VComponents b Hi _ _ ltac:(done)) as (b1' & Hf' & _ & Em & _). rewrite Hf in Hf'. injection Hf' as ->.
        rewrite Em. by destruct Hde. }
      unfold ready. by rewrite Hb. }
    eexists _, b2. split; [done|]. split; [done|]. intros m [(Ht & Hw & Hn) _].
    assert (w = Z.of_nat (longest (r_components (b_rm b)))) as ->.
    { unfold get_itemsize in Gi. cbv zeta in Gi. injection Gi as <- _.
      pose proof (fetch_inv VComponents b Hi) as Hb1. rewrite Gf in Hb1. cbn in Hb1.
      destruct (ready_meta zero VComponents b1 Hb1) as [[(_ & Hw1 & _) _] _]. by rewrite Hw1, Er1. }
    cbn [shows]. rewrite Hw. assert (laid_out (Z.to_nat (Z.of_nat (longest (r_components (b_rm b))))) (r_components (b_rm b))
       (concat (map (padded (Z.of_nat (longest (r_components (b_rm b))))) (r_components (b_rm b))))) as L.
    { apply padded_laid_out. intros s Hs. rewrite Nat2Z.id. by apply longest_bound. }
    split; [|done]. destruct L as [L _]. rewrite L, Hn, Hw. lia.
  - (* FilePrefix *)
    destruct (fetch_eq zero VFilePrefix b Hi _ _ ltac:(done)) as (b1 & E & Er & Em & Ex).
    exists (r_prefix (b_rm b)), b1. split; [|split; [done|]].
    + unfold get_void. rewrite E. cbv zeta. rewrite Ex. cbn [x_meta x_string].
      destruct Hde as (Ht & Hn & Hw). rewrite Ht, Hn.
      assert (m_dim (info VFilePrefix (b_rm b) (b_meta (ready zero VFilePrefix b) VFilePrefix)) = 0 \/
              m_dim (info VFilePrefix (b_rm b) (b_meta (ready zero VFilePrefix b) VFilePrefix)) = 1) as Hd.
      { destruct (ready_inv zero VFilePrefix b Hi) as [H1 _]. specialize (H1 VFilePrefix). rewrite ready_rm in H1.
        destruct (info_ok _ _ _ H1) as [(_ & Hd & _) _]. by apply Hd; right. }
      rewrite decide_True by done. by apply copied_front.
    + intros m (Ht & Hn & Hw). cbn [shows]. rewrite Hn, Hw. done.
  - (* SelectedOutput *)
    destruct Hr as (Hc & Hrc & t & Ht & Hl).
    destruct (fetch_eq zero VSelectedOutput b Hi _ _ ltac:(done)) as (b1 & E & Er & Em & Ex).
    pose proof (numbers_laid_out dbytes dbytes_size t) as Hat.
    exists (concat (map dbytes t)), b1. split; [|split; [done|]].
    + unfold get_void. rewrite E. cbv zeta. rewrite Ex. cbn [x_meta x_doubles]. rewrite Ht.
      destruct Hde as (Hty & Hw & Hn & Hd). specialize (Hn Hc). rewrite Hty, Hd, Hn.
      replace (8 * Z.of_nat (r_rows (b_rm b)) * r_cols (b_rm b)) with (Z.of_nat (r_rows (b_rm b)) * r_cols (b_rm b) * 8) by lia.
      rewrite Z.quot_mul by lia. rewrite decide_False by lia. rewrite decide_True by lia.
      apply copied_whole. destruct Hat as [-> _]. lia.
    + intros m (Hty & Hw & Hn & Hd). cbn [shows]. rewrite (Hn Hc), Hw, Ht. split; [|done]. destruct Hat as [-> _]. lia.
  - destruct (deliver_int VColumnCount b (r_cols (b_rm b)) Hi) as (b1 & G & Er); [done|by intros m [? _]|].
    eexists _, b1. split; [done|]. split; [done|]. intros m [(Ht & -> & -> & _) _]. split; [done|]. split; [apply int_bytes_at|done].
  - destruct (deliver_int VCount b (r_count (b_rm b)) Hi) as (b1 & G & Er); [done|by intros m [? _]|].
    eexists _, b1. split; [done|]. split; [done|]. intros m [(Ht & -> & -> & _) _]. split; [done|]. split; [apply int_bytes_at|done].
  - (* Headings *)
    destruct (deliver_names VHeadings b (r_heads (b_rm b)) (set_itemsize (heads_width (b_rm b))) Hi ltac:(done))
      as (w & b1 & b2 & G & Er & Gi & Gf & Er1).
    { by destruct (Hde Hr). }
    { intros b1 Hf Hx. destruct (fetch_eq zero VHeadings b Hi _ _ ltac:(done)) as (b1' & Hf' & Er & _ & _).
      rewrite Hf in Hf'. injection Hf' as ->. unfold ready, var_fn, info_ex. destruct (m_init _); cbn; [done|].
      rewrite Er, decide_True by done. done. }
    eexists _, b2. split; [done|]. split; [done|]. intros m Hm. destruct (Hm Hr) as (Ht & Hw & Hn).
    assert (w = heads_width (b_rm b)) as ->.
    { unfold get_itemsize in Gi. cbv zeta in Gi. injection Gi as <- _.
      pose proof (fetch_inv VHeadings b Hi) as Hb1. rewrite Gf in Hb1. cbn in Hb1.
      destruct (ready_meta zero VHeadings b1 Hb1) as [Hd1 _]. rewrite Er1 in Hd1. by destruct (Hd1 Hr) as (_ & Hw1 & _). }
    cbn [shows]. rewrite Hw.
    assert (laid_out (Z.to_nat (heads_width (b_rm b))) (r_heads (b_rm b))
              (concat (map (padded (heads_width (b_rm b))) (r_heads (b_rm b))))) as L.
    { apply padded_laid_out. intros s Hs. unfold heads_width. rewrite Nat2Z.id. pose proof (longest_bound _ _ Hs). lia. }
    split; [|done]. destruct L as [L _]. rewrite L, Hn. unfold heads_width. lia.
  - destruct (deliver_int VRowCount b (Z.of_nat (r_rows (b_rm b))) Hi) as (b1 & G & Er); [done|done|].
    eexists _, b1. split; [done|]. split; [done|]. intros m (Ht & -> & -> & _). split; [done|]. split; [apply int_bytes_at|done].
  - destruct (deliver_int VCurrent b (r_current (b_rm b)) Hi) as (b1 & G & Er); [done|by intros m [? _]|].
    eexists _, b1. split; [done|]. split; [done|]. intros m [(Ht & -> & -> & _) _]. split; [done|]. split; [apply int_bytes_at|done].
  - (* Viscosity *)
    destruct Hr as [Hrows Hlen].
    destruct (fetch_eq zero VViscosity b Hi _ _ ltac:(done)) as (b1 & E & Er & Em & Ex).
    pose proof (numbers_laid_out dbytes dbytes_size (r_viscosity (b_rm b))) as Hat.
    exists (concat (map dbytes (r_viscosity (b_rm b)))), b1. split; [|split; [done|]].
    + unfold get_void. rewrite E. cbv zeta. rewrite Ex. cbn [x_meta x_doubles].
      destruct Hde as [(Hty & Hn & Hw & Hd) _]. rewrite Hty, Hd, Hn.
      rewrite decide_False by lia. rewrite decide_True by lia. apply copied_whole. destruct Hat as [-> _]. lia.
    + intros m [(Hty & Hn & Hw & Hd) _]. cbn [shows]. rewrite Hn, Hw. split; [|done]. destruct Hat as [-> _]. lia.
Qed.

Lemma get_nbytes_described v (b : bmi D) n b1 :
  inv b -> get_nbytes zero v b = (n, b1) ->
  n = m_nbytes (b_meta b1 v) /\ described v (b_rm b1) (b_meta b1 v) /\ inv b1 /\ b_rm b1 = b_rm b.
Proof using.
  intros Hi. unfold get_nbytes. cbv zeta. intros E. injection E as <- <-. split; [done|].
  destruct (ready_meta zero v b Hi) as [Hd _]. rewrite ready_rm. split; [done|]. split; [by apply ready_inv|done].
Qed.
Lemma get_itemsize_described v (b : bmi D) w b1 :
  inv b -> get_itemsize zero v b = (w, b1) ->
  w = m_itemsize (b_meta b1 v) /\ described v (b_rm b1) (b_meta b1 v) /\ inv b1 /\ b_rm b1 = b_rm b.
Proof using.
  intros Hi. unfold get_itemsize. cbv zeta. intros E. injection E as <- <-. split; [done|].
  destruct (ready_meta zero v b Hi) as [Hd _]. rewrite ready_rm. split; [done|]. split; [by apply ready_inv|done].
Qed.

(** C81: in every history in which the components change in FindComponents only, GetValue into memory writes
    exactly the number of bytes that GetVarNbytes gave before, and they are the value of the variable in
    elements of the size that GetVarItemsize gave. *)
Theorem announced_delivered v (b b1 b2 : bmi D) n w :
  used zero b -> reliable v (b_rm b) ->
  get_nbytes zero v b = (n, b1) -> get_itemsize zero v b1 = (w, b2) ->
  exists bytes b3, get_void zero dbytes v b2 = Got bytes b3 /\ Z.of_nat (length bytes) = n /\ shows dbytes v (b_rm b) w bytes /\
    b_rm b3 = b_rm b.
Proof using dbytes_size.
  intros Hu Hr En Ew. apply used_inv in Hu.
  destruct (get_nbytes_described _ _ _ _ Hu En) as (-> & Hd1 & Hi1 & Er1).
  destruct (get_itemsize_described _ _ _ _ Hi1 Ew) as (-> & Hd2 & Hi2 & Er2).
  rewrite Er1 in Hd1. rewrite Er2, Er1 in Hd2.
  destruct (deliver v b2 Hi2) as (bytes & b3 & G & Er3 & Hm); [by rewrite Er2, Er1|].
  rewrite Er2, Er1 in Er3, Hm. exists bytes, b3. split; [done|].
  destruct (Hm _ Hd1) as [Hl _]. destruct (Hm _ Hd2) as [_ Hs]. done.
Qed.

(** C81: the functions that return a string or a vector of strings return the current text whatever has happened
    (the components included: here no condition on the history is needed). *)
Theorem texts_current (b : bmi D) :
  (exists b1, get_string zero VErrorString b = Got (r_errors (b_rm b)) b1 /\ b_rm b1 = b_rm b) /\
  (exists b1, get_string zero VFilePrefix b = Got (r_prefix (b_rm b)) b1 /\ b_rm b1 = b_rm b) /\
  (exists b1, get_strings zero VComponents b = Got (r_components (b_rm b)) b1 /\ b_rm b1 = b_rm b) /\
  (exists b1, get_strings zero VHeadings b = Got (r_heads (b_rm b)) b1 /\ b_rm b1 = b_rm b).
Proof using.
  unfold get_string, get_strings, fetch, var_fn. rewrite !ready_rm. cbn.
  split_and!; eexists; (split; [reflexivity|reflexivity]).
Qed.

(** ** ErrorString *)
Lemma find_slot (r : rm D) (b : bmi D) v : b_meta (find_components zero r b) v = info v r (set_init false (b_meta b v)).
Proof using.
  clear dbytes_size dbytes.
  assert (forall l (b' : bmi D), NoDup l -> b_rm (foldl (fun b v => renewed zero v b) b' l) = b_rm b' /\
     b_meta (foldl (fun b v => renewed zero v b) b' l) v =
       if decide (v ∈ l) then info v (b_rm b') (set_init false (b_meta b' v)) else b_meta b' v) as G.
  { induction l as [|w l IH]; intros b' Hn; cbn [foldl].
    - rewrite decide_False by set_solver. done.
    - apply NoDup_cons in Hn as [Hw Hn]. destruct (IH (renewed zero w b') Hn) as [I1 I2].
      assert (b_rm (renewed zero w b') = b_rm b') as Er by reflexivity.
      rewrite I1, I2, Er. split; [done|]. destruct (decide (v = w)) as [->|Hv].
      + rewrite (decide_False (P := w ∈ l)) by done. rewrite (decide_True (P := w ∈ w :: l)) by (left).
        unfold renewed, var_fn. cbn [act b_rm b_meta snd]. by rewrite !decide_True by done.
      + assert (b_meta (renewed zero w b') v = b_meta b' v) as ->.
        { unfold renewed, var_fn. cbn [act b_rm b_meta snd]. by rewrite !decide_False by done. }
        destruct (decide (v ∈ l)); [rewrite decide_True by (by right)|rewrite decide_False by (rewrite elem_of_cons; naive_solver)]; done. }
  unfold find_components. destruct (G all_vars (Bmi r (b_meta b) (b_ex b))) as [_ ->].
  - apply (bool_decide_unpack _). vm_compute. exact I.
  - rewrite decide_True; [done|]. destruct v; apply (bool_decide_unpack _); vm_compute; exact I.
Qed.

Lemma error_slot_kept (o : op D) (b : bmi D) :
  (forall r, o <> Find r) -> m_init (b_meta b VErrorString) = true -> m_type (b_meta b VErrorString) = TString ->
  m_init (b_meta (do_op zero o b) VErrorString) = true /\ m_type (b_meta (do_op zero o b) VErrorString) = TString /\
  m_nbytes (b_meta (do_op zero o b) VErrorString) = m_nbytes (b_meta b VErrorString) /\
  m_dim (b_meta (do_op zero o b) VErrorString) = m_dim (b_meta b VErrorString).
Proof using.
  intros Ho Hi Ht.
  assert (forall v t (b' : bmi D), m_init (b_meta b' VErrorString) = true -> m_type (b_meta b' VErrorString) = TString ->
     m_init (b_meta (snd (var_fn zero v t b')) VErrorString) = true /\
     m_type (b_meta (snd (var_fn zero v t b')) VErrorString) = TString /\
     m_nbytes (b_meta (snd (var_fn zero v t b')) VErrorString) = m_nbytes (b_meta b' VErrorString) /\
     m_dim (b_meta (snd (var_fn zero v t b')) VErrorString) = m_dim (b_meta b' VErrorString)) as G.
  { intros v t b' Hi' Ht'. unfold var_fn. destruct (decide (v = VErrorString)) as [->|Hv].
    - cbn [info]. rewrite Hi'. destruct t; cbn; rewrite decide_True by done; cbn; done.
    - destruct (act v t _ _ _) as [[[r' m'] x']|]; cbn; rewrite decide_False by done; done. }
  assert (forall v, m_init (b_meta (ready zero v b) VErrorString) = true /\ m_type (b_meta (ready zero v b) VErrorString) = TString /\
     m_nbytes (b_meta (ready zero v b) VErrorString) = m_nbytes (b_meta b VErrorString) /\
     m_dim (b_meta (ready zero v b) VErrorString) = m_dim (b_meta b VErrorString)) as R.
  { intros v. unfold ready. destruct (m_init (b_meta b v)); [done|]. by apply G. }
  destruct o as [r|r|v|v|t v|n v|s v]; cbn [do_op].
  - done.
  - by destruct (Ho r).
  - apply R.
  - destruct (R v) as (R1 & R2 & R3 & R4). destruct (G v GetVar (ready zero v b) R1 R2) as (G1 & G2 & G3 & G4).
    unfold fetch. by rewrite G1, G2, G3, G4.
  - destruct (R v) as (R1 & R2 & R3 & R4).
    destruct (G v SetVar (with_ex (ex_b t) (ready zero v b)) R1 R2) as (G1 & G2 & G3 & G4).
    unfold set_bool, put. by rewrite G1, G2, G3, G4.
  - destruct (R v) as (R1 & R2 & R3 & R4).
    destruct (G v SetVar (with_ex (ex_i n) (ready zero v b)) R1 R2) as (G1 & G2 & G3 & G4).
    unfold set_int, put. by rewrite G1, G2, G3, G4.
  - destruct (R v) as (R1 & R2 & R3 & R4).
    destruct (G v SetVar (with_ex (ex_s s) (ready zero v b)) R1 R2) as (G1 & G2 & G3 & G4).
    unfold set_string, put. by rewrite G1, G2, G3, G4.
Qed.

Lemma error_slot_history (l : list (op D)) (b : bmi D) :
  Forall (fun o => forall r, o <> Find r) l -> m_init (b_meta b VErrorString) = true -> m_type (b_meta b VErrorString) = TString ->
  let b' := do_ops zero l b in
  m_init (b_meta b' VErrorString) = true /\ m_type (b_meta b' VErrorString) = TString /\
  m_nbytes (b_meta b' VErrorString) = m_nbytes (b_meta b VErrorString) /\ m_dim (b_meta b' VErrorString) = m_dim (b_meta b VErrorString).
Proof using.
  revert b. induction l as [|o l IH]; intros b Hl Hi Ht; cbn; [done|].
  apply Forall_cons in Hl as [Ho Hl].
  destruct (error_slot_kept o b Ho Hi Ht) as (K1 & K2 & K3 & K4).
  destruct (IH (do_op zero o b) Hl K1 K2) as (I1 & I2 & I3 & I4). unfold do_ops in *. by rewrite I1, I2, I3, I4.
Qed.

(** What GetValue into memory does once the variable has been initialised. *)
Lemma error_read (b : bmi D) :
  m_init (b_meta b VErrorString) = true -> m_type (b_meta b VErrorString) = TString ->
  (m_dim (b_meta b VErrorString) = 0 \/ m_dim (b_meta b VErrorString) = 1) ->
  exists b1, get_void zero dbytes VErrorString b = copied (r_errors (b_rm b) ++ [nul]) (m_nbytes (b_meta b VErrorString)) b1 /\
    m_itemsize (b_meta b1 VErrorString) = size_z (r_errors (b_rm b)) /\ b_rm b1 = b_rm b /\
    m_init (b_meta b1 VErrorString) = true /\ m_type (b_meta b1 VErrorString) = TString /\
    m_nbytes (b_meta b1 VErrorString) = m_nbytes (b_meta b VErrorString) /\
    m_dim (b_meta b1 VErrorString) = m_dim (b_meta b VErrorString).
Proof using.
  intros Hi Ht Hd. unfold get_void, fetch, ready. rewrite Hi. unfold var_fn. cbn [info]. rewrite Hi.
  cbn [act]. cbv zeta. cbn [b_ex b_meta b_rm x_meta x_string m_type m_nbytes m_dim set_itemsize]. rewrite Ht, decide_True by done.
  eexists. split; [reflexivity|]. cbn. by rewrite decide_True by done.
Qed.

(** C81: through memory the error text is cut to the length it had when the variable was initialised: in the
    last FindComponents, or when it was first asked for or read. Should it be shorter by two characters or more,
    memory behind it is read. *)
Theorem error_text_cut (b : bmi D) (l : list (op D)) :
  used zero b -> Forall (fun o => forall r, o <> Find r) l ->
  let '(n, b1) := get_nbytes zero VErrorString b in
  let b2 := do_ops zero l b1 in
  match get_void zero dbytes VErrorString b2 with
  | Got bytes _ => (Z.to_nat n <= S (length (r_errors (b_rm b2))))%nat /\
                   bytes = take (Z.to_nat n) (r_errors (b_rm b2) ++ [nul])
  | Undefined => (S (length (r_errors (b_rm b2))) < Z.to_nat n)%nat
  | Thrown _ => False
  end.
Proof using.
  intros Hu Hl. apply used_inv in Hu. destruct (get_nbytes zero VErrorString b) as [n b1] eqn:En.
  destruct (get_nbytes_described _ _ _ _ Hu En) as (-> & [[Ht Hn] Hi] & Hv & Er). cbv zeta.
  destruct (error_slot_history l b1 Hl Hi Ht) as (K1 & K2 & K3 & K4).
  destruct (Hv VErrorString) as (_ & Hd & _). specialize (Hd (or_introl eq_refl)).
  destruct (error_read (do_ops zero l b1)) as (b3 & -> & _); [done|done|by rewrite K4|].
  rewrite K3. unfold copied, memcpy. rewrite app_length. cbn [length].
  case_decide as Hc; [|split_and?; lia]. split; [lia|done].
Qed.

(** C81, refuted: after a FindComponents that leaves no errors, GetVarNbytes("ErrorString") is 0 and GetValue into
    memory delivers nothing, whatever errors the module has met since. *)
Theorem error_text_lost_refuted (b : bmi D) (r : rm D) (l : list (op D)) :
  used zero b -> r_rows r = r_rows (b_rm b) -> length (r_errors r) = 0%nat -> Forall (fun o => forall r', o <> Find r') l ->
  let b1 := do_ops zero l (find_components zero r b) in
  fst (get_nbytes zero VErrorString b1) = 0 /\ exists b2, get_void zero dbytes VErrorString b1 = Got [] b2.
Proof using.
  intros Hu Hr He Hl. set (b0 := find_components zero r b). cbv zeta.
  assert (used zero b0) as Hu0 by exact (Used_op zero (Find r) b Hu Hr).
  assert (m_init (b_meta b0 VErrorString) = true /\ m_type (b_meta b0 VErrorString) = TString /\ m_nbytes (b_meta b0 VErrorString) = 0)
    as (Hi & Ht & Hn).
  { subst b0. rewrite find_slot. cbn. unfold size_z. rewrite He. done. }
  clearbody b0.
  destruct (error_slot_history l b0 Hl Hi Ht) as (K1 & K2 & K3 & K4).
  split.
  - unfold get_nbytes, ready. rewrite K1. cbn [fst]. by rewrite K3.
  - destruct (used_inv zero b0 Hu0 VErrorString) as (_ & Hd & _). specialize (Hd (or_introl eq_refl)).
    destruct (error_read (do_ops zero l b0)) as (b3 & -> & _); [done|done|by rewrite K4|].
    rewrite K3, Hn, copied_eq by (rewrite ?app_length; lia). by exists b3.
Qed.

(** ** SelectedOutputOn *)
Lemma on_described (b : bmi D) :
  inv b -> exists b1, fetch zero VOn b = (true, b1) /\ b_rm b1 = b_rm b /\
    let m := x_meta (b_ex b1) in
    m_type m = TBool /\ m_nbytes m = 1 /\ m_dim m = 1 /\ m_b m = r_on (b_rm b) /\ m_i m = flag (r_on (b_rm b)).
Proof using.
  intros Hi. pose proof (info_again zero VOn b Hi) as [(Ht & Hn & Hw & Hd) _].
  destruct (fetch_eq zero VOn b Hi _ _ ltac:(done)) as (b1 & E & Er & Em & Ex).
  exists b1. split; [done|]. split; [done|]. cbv zeta. rewrite Ex. cbn [x_meta set_i set_b m_type m_nbytes m_dim m_b m_i]. done.
Qed.

(** C81, refuted: one byte is announced for SelectedOutputOn and four are written. *)
Theorem on_announced_refuted (b b1 : bmi D) n :
  used zero b -> get_nbytes zero VOn b = (n, b1) ->
  n = 1 /\ exists bytes b2, get_void zero dbytes VOn b1 = Got bytes b2 /\ length bytes = 4%nat /\ int_at (if r_on (b_rm b) then 1 else 0) bytes.
Proof using.
  intros Hu En. apply used_inv in Hu. destruct (get_nbytes_described _ _ _ _ Hu En) as (-> & [(Ht & Hn & Hw & Hd) Hi] & Hv & Er).
  split; [done|]. destruct (on_described b1 Hv) as (b2 & E & Er2 & Ht2 & Hn2 & Hd2 & Hb2 & Hi2). cbv zeta in *.
  exists (int_bytes (flag (r_on (b_rm b)))), b2. split; [|split; [done|]].
  - unfold get_void. rewrite E. cbv zeta. rewrite Ht2, Hd2, Hb2, Er. by rewrite decide_True by done.
  - unfold flag. apply int_bytes_at.
Qed.

(** C81: through RM_BmiGetValueInt only the first of the four bytes of the caller's [int] is written. *)
Theorem on_read_by_c (b : bmi D) x0 x1 x2 x3 :
  used zero b ->
  exists y b1, rm_get_value_int zero VOn [x0; x1; x2; x3] b = Got [y; x1; x2; x3] b1 /\
    (int_at (if r_on (b_rm b) then 1 else 0) [y; x1; x2; x3] <-> x1 = nul /\ x2 = nul /\ x3 = nul).
Proof using.
  intros Hu. apply used_inv in Hu. destruct (on_described b Hu) as (b2 & E & Er2 & Ht2 & Hn2 & Hd2 & Hb2 & Hi2). cbv zeta in *.
  exists (byte_of (flag (r_on (b_rm b)))), b2. split.
  - unfold rm_get_value_int, get_int_ptr. rewrite E. cbv zeta. rewrite Hd2, Hn2, Hi2, decide_True by done.
    rewrite copied_eq by (cbn; lia). done.
  - pose proof (byte_of_val (flag (r_on (b_rm b)))) as Hy. rewrite Z.mod_small in Hy by (unfold flag; case_match; lia).
    assert ((if r_on (b_rm b) then 1 else 0) = flag (r_on (b_rm b))) as -> by reflexivity.
    assert (Hm : flag (r_on (b_rm b)) mod 4294967296 = flag (r_on (b_rm b))) by (rewrite Z.mod_small; [done|unfold flag; case_match; lia]).
    assert (forall c, Z.of_N (N_of_ascii c) = 0 <-> c = nul) as Hz.
    { intros c. split; [|by intros ->]. intros H. rewrite <-(ascii_N_embedding c). by replace (N_of_ascii c) with 0%N by lia. }
    split.
    + intros (y0 & y1 & y2 & y3 & Ey & V). injection Ey as <- <- <- <-. rewrite Hy, Hm in V. rewrite <-!Hz. lia.
    + intros (-> & -> & ->). exists (byte_of (flag (r_on (b_rm b)))), nul, nul, nul. split; [done|]. rewrite Hy, Hm.
      assert (Z.of_N (N_of_ascii nul) = 0) as -> by reflexivity. lia.
Qed.

(** C81: SetValue with a [bool] sets the flag as asked, and SetValue with a text the file prefix; GetValue then
    gives them back. *)
Theorem on_set_bool (b : bmi D) t : exists b1, set_bool zero VOn t b = (true, b1) /\ r_on (b_rm b1) = t /\ r_prefix (b_rm b1) = r_prefix (b_rm b).
Proof using.
  unfold set_bool, put, var_fn. cbn. eexists. split; [reflexivity|]. cbn. rewrite ready_rm.
  unfold info_ex. by destruct (m_init _).
Qed.
Theorem prefix_set (b : bmi D) s :
  exists b1, set_string zero VFilePrefix s b = (true, b1) /\ r_prefix (b_rm b1) = s /\ r_on (b_rm b1) = r_on (b_rm b) /\
    exists b2, get_string zero VFilePrefix b1 = Got s b2.
Proof using.
  unfold set_string, put, var_fn. cbn. eexists. split; [reflexivity|]. cbn. rewrite ready_rm.
  assert (forall (x : exch (D := D)) m, x_string (info_ex zero VFilePrefix (b_rm b) m x) = x_string x) as Hx.
  { intros x m. unfold info_ex. by destruct (m_init m). }
  rewrite Hx. split; [done|]. split; [done|].
  rewrite ready_rm. eexists. reflexivity.
Qed.

(** C81, refuted: SetValue from memory for FilePrefix divides by zero while the prefix is empty. *)
Theorem prefix_set_memory_refuted (b : bmi D) mem : used zero b -> r_prefix (b_rm b) = [] -> set_void zero VFilePrefix mem b = None.
Proof using.
  intros Hu Hp. apply used_inv in Hu. destruct (ready_meta zero VFilePrefix b Hu) as [(_ & _ & Hw) _].
  unfold set_void. cbv zeta. rewrite Hw, Hp. by rewrite decide_True by done.
Qed.
(** Otherwise it takes the text up to the null character. *)
Theorem prefix_set_memory (b : bmi D) mem s tl :
  used zero b -> r_prefix (b_rm b) <> [] -> nul ∉ s -> mem = s ++ nul :: tl ->
  exists b1, set_void zero VFilePrefix mem b = Some (true, b1) /\ r_prefix (b_rm b1) = s.
Proof using.
  intros Hu Hp Hs ->. apply used_inv in Hu. destruct (ready_meta zero VFilePrefix b Hu) as [(Ht & _ & Hw) _].
  unfold set_void. cbv zeta. rewrite Ht, Hw. rewrite decide_False.
  2: { unfold size_z. destruct (r_prefix (b_rm b)); [done|cbn; lia]. }
  assert (c_string (s ++ nul :: tl) = Some s) as ->.
  { induction s as [|c s IH]; cbn; [by rewrite decide_True by done|]. apply not_elem_of_cons in Hs as [Hc Hs].
    rewrite decide_False by done. by rewrite IH. }
  destruct (prefix_set b s) as (b1 & E & Hb & _). unfold set_string in E. rewrite E. by exists b1.
Qed.

(** C81, refuted: SetValue with an [int], which is what RM_BmiSetValueInt calls, sets the flag to what VarExchange holds,
    whatever the number; that is [false] after any other variable has been read or asked for the first time. *)
Theorem on_set_by_c_refuted (b : bmi D) v n :
  used zero b -> v <> VOn -> v <> VNth -> m_init (b_meta b VOn) = true ->
  exists b1, rm_set_value_int zero VOn n (do_op zero (Read v) b) = (true, b1) /\ r_on (b_rm b1) = false.
Proof using.
  intros Hu Hv Hv' Hon. apply used_inv in Hu.
  assert (exists b1, fetch zero v b = (true, b1)) as [b1 Ef].
  { unfold fetch, var_fn. destruct v; try done; cbn; eexists; reflexivity. }
  pose proof (fetch_inv v b Hu) as Hi1. cbn [do_op]. rewrite Ef in Hi1 |- *. cbn [snd] in *.
  assert (x_meta (b_ex b1) = b_meta b1 v) as Ex.
  { revert Ef. unfold fetch, var_fn. destruct (act v GetVar _ _ _) as [[[r' m'] x']|]; [|done]. intros E. injection E as <-.
    cbn. by rewrite decide_True by done. }
  assert (m_init (b_meta b1 VOn) = true) as Hon1.
  { revert Ef. unfold fetch, var_fn. destruct (act v GetVar _ _ _) as [[[r' m'] x']|]; [|done]. intros E. injection E as <-.
    cbn. rewrite decide_False by done. unfold ready. destruct (m_init (b_meta b v)); [done|]. unfold var_fn. cbn.
    by rewrite decide_False by done. }
  unfold rm_set_value_int, set_int, put, ready. rewrite Hon1. unfold var_fn. cbn. eexists. split; [reflexivity|]. cbn.
  unfold info_ex. rewrite Hon1. cbn. rewrite Ex. destruct (Hi1 v) as (_ & _ & Hb). by apply Hb.
Qed.

Lemma components_stale (r' : rm D) (b0 : bmi D) :
  m_init (b_meta b0 VComponents) = true -> m_nbytes (b_meta b0 VComponents) = 2 -> m_itemsize (b_meta b0 VComponents) = 2 ->
  m_type (b_meta b0 VComponents) = TStrings -> r_components r' = [chars "Ca"; chars "Charge"] ->
  fst (get_nbytes zero VComponents (do_op zero (Change r') b0)) = 2 /\
  exists b1, get_void zero dbytes VComponents (do_op zero (Change r') b0) = Got (chars "CaCharge") b1.
Proof using.
  intros Hi Hn Hw Ht Hr'. split.
  - unfold get_nbytes, ready. cbn [do_op b_meta]. by rewrite Hi.
  - unfold get_void, fetch, ready. cbn [do_op b_meta]. rewrite Hi. unfold var_fn. cbn [info b_meta b_rm]. rewrite Hi. cbn [act].
    cbv zeta. cbn [b_ex x_meta]. rewrite Ht. unfold get_itemsize, ready. cbn [b_meta]. rewrite decide_True by done. rewrite Hi.
    cbn [b_ex x_strings b_meta]. rewrite decide_True by done. rewrite Hw, Hr'. eexists. reflexivity.
Qed.
(** C81, refuted: components that change outside FindComponents (a FindComponents that fails half way, C58) are not
    announced: more is written than GetVarNbytes says. *)
Theorem components_stale_refuted (r r' : rm D) :
  r_components r = [chars "Ca"] -> r_components r' = [chars "Ca"; chars "Charge"] ->
  let b := do_op zero (Change r') (find_components zero r (bmi_new zero r)) in
  fst (get_nbytes zero VComponents b) = 2 /\
  exists b1, get_void zero dbytes VComponents b = Got (chars "CaCharge") b1.
Proof using.
  intros Hr Hr'. pose proof (find_slot r (bmi_new zero r) VComponents) as E. cbv zeta.
  generalize dependent (find_components zero r (bmi_new zero r)). intros b0 E. cbn [info b_meta bmi_new] in E. rewrite Hr in E. cbn in E.
  apply components_stale; [by rewrite E..|done].
Qed.

(** C81, refuted: a selected output of one number is not delivered: what arrives is the scalar of the variable, 0. *)
Theorem one_number_refuted (b : bmi D) t :
  used zero b -> 0 < r_count (b_rm b) -> r_rows (b_rm b) = 1%nat -> r_cols (b_rm b) = 1 -> (forall old, r_table (b_rm b) old = [t]) ->
  exists b1, get_void zero dbytes VSelectedOutput b = Got (dbytes (m_d (b_meta b VSelectedOutput))) b1.
Proof using dbytes_size.
  intros Hu Hc Hr Hcol Ht. apply used_inv in Hu. pose proof (info_again zero VSelectedOutput b Hu) as (Hty & Hw & Hn & Hd).
  specialize (Hn Hc). rewrite Hr, Hcol in Hn.
  destruct (fetch_eq zero VSelectedOutput b Hu _ _ ltac:(done)) as (b1 & E & Er & Em & Ex).
  exists b1. unfold get_void. rewrite E. cbv zeta. rewrite Ex. cbn [x_meta]. rewrite Hty, Hd, Hn, decide_True by done.
  assert (m_d (info VSelectedOutput (b_rm b) (b_meta (ready zero VSelectedOutput b) VSelectedOutput)) = m_d (b_meta b VSelectedOutput)) as ->.
  { destruct (ready_meta zero VSelectedOutput b Hu) as [_ ->]. cbn. repeat case_match; done. }
  apply copied_whole. by rewrite dbytes_size.
Qed.

(** ** The C functions *)
Lemma store_front (l mem : text) (b : bmi D) : (length l <= length mem)%nat -> store (Got l b) mem = Got (l ++ drop (length l) mem) b.
Proof using. intros H. cbn. unfold stored. by rewrite decide_True by done. Qed.

(** C82: RM_BmiGetValueChar gives the bytes of the variable and a null character, when they fit, and nothing
    beyond; otherwise an error. *)
Theorem c_text_delivered v (b b1 : bmi D) n dest l :
  used zero b -> reliable v (b_rm b) -> get_nbytes zero v b = (n, b1) -> l = Z.of_nat (length dest) ->
  if decide (n < l) then
    exists bytes w b2, rm_get_value_char zero dbytes v dest l b = Got (Some (bytes ++ nul :: drop (S (length bytes)) dest)) b2 /\
      Z.of_nat (length bytes) = n /\ shows dbytes v (b_rm b) w bytes /\ fst (get_itemsize zero v b1) = w
  else exists b2, rm_get_value_char zero dbytes v dest l b = Got None b2.
Proof using dbytes_size.
  intros Hu Hr En ->. unfold rm_get_value_char. rewrite En. case_decide as Hn; [rewrite decide_False by lia|rewrite decide_True by lia; by eexists].
  apply used_inv in Hu. destruct (get_nbytes_described _ _ _ _ Hu En) as (-> & Hd1 & Hi1 & Er1).
  destruct (get_itemsize zero v b1) as [w b2] eqn:Ew.
  destruct (get_itemsize_described _ _ _ _ Hi1 Ew) as (-> & Hd2 & Hi2 & Er2).
  rewrite Er1 in Hd1. rewrite Er2, Er1 in Hd2.
  destruct (deliver v b1 Hi1) as (bytes & b3 & G & Er3 & Hm); [by rewrite Er1|]. rewrite Er1 in Hm.
  destruct (Hm _ Hd1) as [Hl _]. destruct (Hm _ Hd2) as [_ Hs].
  exists bytes, (m_itemsize (b_meta b2 v)), b3. split; [|done]. rewrite G, store_front by lia.
  rewrite decide_True by (rewrite app_length, drop_length; lia).
  assert (Z.to_nat (m_nbytes (b_meta b1 v)) = length bytes + 0)%nat as -> by lia. f_equal. f_equal.
  refine (eq_trans (insert_app_r bytes (drop (length bytes) dest) 0 nul) _). f_equal.
  destruct (drop (length bytes) dest) as [|c d] eqn:Ed.
  { apply (f_equal length) in Ed. rewrite drop_length in Ed. cbn in Ed. lia. }
  cbn. f_equal. replace (S (length bytes)) with (length bytes + 1)%nat by lia. by rewrite <-drop_drop, Ed.
Qed.

(** C82, refuted: with the memory that GetVarNbytes asks for, SelectedOutputOn writes past the end of it. *)
Theorem c_on_overflow_refuted (b : bmi D) x0 x1 :
  used zero b -> rm_get_value_char zero dbytes VOn [x0; x1] 2 b = Undefined.
Proof using.
  intros Hu. unfold rm_get_value_char. destruct (get_nbytes zero VOn b) as [n b1] eqn:En.
  destruct (on_announced_refuted b b1 n Hu En) as (-> & bytes & b2 & G & L & _). rewrite decide_False by lia. rewrite G. cbn.
  unfold stored. rewrite decide_False by (cbn; lia). done.
Qed.

(** ** The Fortran functions *)
Lemma f_assign_length n s : length (f_assign n s) = n.
Proof using. unfold f_assign. rewrite app_length, take_length, replicate_length. lia. Qed.

Lemma get_type_described v (b : bmi D) t b1 :
  inv b -> get_type zero v b = (t, b1) ->
  t = m_type (b_meta b1 v) /\ described v (b_rm b1) (b_meta b1 v) /\ inv b1 /\ b_rm b1 = b_rm b.
Proof using.
  intros Hi. unfold get_type. cbv zeta. intros E. injection E as <- <-. split; [done|].
  destruct (ready_meta zero v b Hi) as [Hd _]. rewrite ready_rm. split; [done|]. split; [by apply ready_inv|done].
Qed.

(** C82: the logical is the flag. *)
Theorem f_logical_delivered (b : bmi D) junk :
  used zero b -> exists b1, f_get_logical zero dbytes VOn junk b = FGot (r_on (b_rm b)) b1.
Proof using.
  intros Hu. apply used_inv in Hu. unfold f_get_logical. destruct (get_type zero VOn b) as [t b1] eqn:Et.
  destruct (get_type_described _ _ _ _ Hu Et) as (-> & [(Ht & _) _] & Hi1 & Er1). rewrite Ht. cbn [ftype]. rewrite String.eqb_refl.
  destruct (on_described b1 Hi1) as (b2 & E & Er2 & Ht2 & Hn2 & Hd2 & Hb2 & _). cbv zeta in *. exists b2.
  assert (get_void zero dbytes VOn b1 = Got (int_bytes (flag (r_on (b_rm b)))) b2) as ->.
  { unfold get_void. rewrite E. cbv zeta. rewrite Ht2, Hd2, Hb2, Er1. by rewrite decide_True by done. }
  rewrite store_front by (by rewrite f_assign_length). cbn [f_of fbind].
  rewrite drop_ge by (by rewrite f_assign_length). rewrite app_nil_r, int_read_int_bytes by (unfold flag; case_match; lia).
  by destruct (r_on (b_rm b)).
Qed.

(** C82: FilePrefix arrives in the caller's variable as Fortran assigns it: cut to its length, or filled up with
    blanks. *)
Theorem f_prefix_delivered (b : bmi D) len junk :
  used zero b ->
  exists dest b1, f_get_char zero dbytes VFilePrefix len junk b = FGot dest b1 /\
    length dest = len /\ take (length (r_prefix (b_rm b))) dest = take len (r_prefix (b_rm b)) /\
    drop (length (r_prefix (b_rm b))) dest = replicate (len - length (r_prefix (b_rm b))) " "%char.
Proof using dbytes_size.
  intros Hu. apply used_inv in Hu. unfold f_get_char. destruct (get_type zero VFilePrefix b) as [t b1] eqn:Et.
  destruct (get_type_described _ _ _ _ Hu Et) as (-> & (Ht & _) & Hi1 & Er1). rewrite Ht. cbn [ftype]. rewrite String.eqb_refl.
  destruct (get_itemsize zero VFilePrefix b1) as [w b2] eqn:Ew.
  destruct (get_itemsize_described _ _ _ _ Hi1 Ew) as (-> & Hde & Hi2 & Er2).
  destruct (deliver VFilePrefix b2 Hi2 I) as (bytes & b3 & G & Er3 & Hm). destruct (Hm _ Hde) as [_ [Hb Hw]]. rewrite Er2, Er1 in Hb.
  assert (Z.to_nat (m_itemsize (b_meta b2 VFilePrefix)) = length bytes) as -> by lia. rewrite <-Hb. clear Hb Hm Hw Er3.
  rewrite G, store_front by (by rewrite f_assign_length). cbn [f_of fbind]. rewrite drop_ge by (by rewrite f_assign_length).
  rewrite app_nil_r. exists (f_assign len bytes), b3. split; [done|]. split; [apply f_assign_length|]. unfold f_assign.
  destruct (decide (len <= length bytes)%nat) as [H|H].
  - replace (len - length bytes)%nat with 0%nat by lia. rewrite app_nil_r, take_take, drop_ge by (rewrite take_length; lia).
    split; [|done]. by rewrite Nat.min_r by lia.
  - rewrite !(take_ge bytes len) by lia. by rewrite take_app, drop_app.
Qed.

(** C82: the lists of names arrive complete, all of the same length, filled up with blanks, provided one of them is not
    empty. *)
Lemma f_names v names (b : bmi D) junk w :
  inv b -> reliable v (b_rm b) -> 0 < w ->
  (forall m : meta, described v (b_rm b) m -> m_type m = TStrings /\ m_itemsize m = w /\ m_nbytes m = w * Z.of_nat (length names)) ->
  (forall bytes, shows dbytes v (b_rm b) w bytes -> laid_out (Z.to_nat w) names bytes) ->
  exists cells b1, f_get_char1 zero dbytes v junk b = FGot cells b1 /\ length cells = length names /\
    forall i name, names !! i = Some name -> (length name <= Z.to_nat w)%nat /\
      cells !! i = Some (name ++ replicate (Z.to_nat w - length name) " "%char).
Proof using dbytes_size.
  intros Hi Hr Hw Hd Hl. unfold f_get_char1. destruct (get_type zero v b) as [t b1] eqn:Et.
  destruct (get_type_described _ _ _ _ Hi Et) as (-> & Hde1 & Hi1 & Er1). rewrite Er1 in Hde1.
  destruct (Hd _ Hde1) as (-> & _ & _). cbn [ftype]. rewrite String.eqb_refl.
  destruct (get_itemsize zero v b1) as [w' b2] eqn:Ew. destruct (get_itemsize_described _ _ _ _ Hi1 Ew) as (-> & Hde2 & Hi2 & Er2).
  rewrite Er2, Er1 in Hde2. destruct (Hd _ Hde2) as (_ & -> & _).
  destruct (get_nbytes zero v b2) as [n b3] eqn:En. destruct (get_nbytes_described _ _ _ _ Hi2 En) as (-> & Hde3 & Hi3 & Er3).
  rewrite Er3, Er2, Er1 in Hde3. destruct (Hd _ Hde3) as (_ & Hw3 & ->). rewrite decide_False by lia. cbv zeta.
  rewrite (Z.mul_comm w), Z.quot_mul, Nat2Z.id by lia.
  destruct (deliver v b3 Hi3) as (bytes & b4 & G & Er4 & Hm); [by rewrite Er3, Er2, Er1|]. rewrite Er3, Er2, Er1 in Hm.
  destruct (Hm _ Hde3) as [_ Hs]. rewrite Hw3 in Hs. destruct (Hl _ Hs) as [L E].
  rewrite G, store_front by (rewrite f_assign_length; lia). cbn [f_of fbind]. rewrite drop_ge by (rewrite f_assign_length; lia).
  rewrite app_nil_r. eexists _, b4. split; [done|]. rewrite map_length, seq_length. split; [done|].
  intros i name Hn. destruct (E i name Hn) as [Hle Ec]. split; [done|].
  rewrite list_lookup_fmap, lookup_seq_lt by (by eapply lookup_lt_Some). cbn. by rewrite Ec.
Qed.
Theorem f_components_delivered (b : bmi D) junk :
  used zero b -> (exists s, s ∈ r_components (b_rm b) /\ s <> []) ->
  exists w cells b1, f_get_char1 zero dbytes VComponents junk b = FGot cells b1 /\ length cells = length (r_components (b_rm b)) /\
    forall i name, r_components (b_rm b) !! i = Some name -> (length name <= w)%nat /\
      cells !! i = Some (name ++ replicate (w - length name) " "%char).
Proof using dbytes_size.
  intros Hu (s & Hs & Hne). apply used_inv in Hu.
  destruct (f_names VComponents (r_components (b_rm b)) b junk (Z.of_nat (longest (r_components (b_rm b))))) as (cells & b1 & H); [done|done| | |done|].
  - pose proof (longest_bound _ _ Hs). destruct s; [done|cbn in *; lia].
  - intros m [(Ht & Hw & Hn) _]. rewrite Hn, Hw. done.
  - eexists _, cells, b1. exact H.
Qed.
Theorem f_headings_delivered (b : bmi D) junk :
  used zero b -> 0 < r_count (b_rm b) -> (exists s, s ∈ r_heads (b_rm b) /\ s <> []) ->
  exists w cells b1, f_get_char1 zero dbytes VHeadings junk b = FGot cells b1 /\ length cells = length (r_heads (b_rm b)) /\
    forall i name, r_heads (b_rm b) !! i = Some name -> (length name <= w)%nat /\
      cells !! i = Some (name ++ replicate (w - length name) " "%char).
Proof using dbytes_size.
  intros Hu Hc (s & Hs & Hne). apply used_inv in Hu.
  destruct (f_names VHeadings (r_heads (b_rm b)) b junk (heads_width (b_rm b))) as (cells & b1 & H); [done|done| | |done|].
  - pose proof (longest_bound _ _ Hs). unfold heads_width. destruct s; [done|cbn in *; lia].
  - intros m Hm. by destruct (Hm Hc).
  - eexists _, cells, b1. exact H.
Qed.

(** C82, refuted: without components the item size is 0, and the number of elements is a division by zero. *)
Theorem f_no_components_refuted (b : bmi D) junk :
  used zero b -> r_components (b_rm b) = [] -> f_get_char1 zero dbytes VComponents junk b = FUndefined.
Proof using.
  intros Hi Hc. apply used_inv in Hi. unfold f_get_char1. destruct (get_type zero VComponents b) as [t b1] eqn:Et.
  destruct (get_type_described _ _ _ _ Hi Et) as (-> & [(Ht & _) _] & Hi1 & Er1). rewrite Ht. cbn [ftype]. rewrite String.eqb_refl.
  destruct (get_itemsize zero VComponents b1) as [w' b2] eqn:Ew.
  destruct (get_itemsize_described _ _ _ _ Hi1 Ew) as (-> & [(_ & Hw & _) _] & Hi2 & Er2). rewrite Er2, Er1, Hc in Hw.
  destruct (get_nbytes zero VComponents b2) as [n b3]. rewrite Hw. by rewrite decide_True by done.
Qed.

(** C82, refuted: the headings of a program without selected output end the Fortran program. *)
Theorem f_no_headings_refuted (r : rm D) junk : r_count r <= 0 -> f_get_char1 zero dbytes VHeadings junk (bmi_new zero r) = Stopped.
Proof using.
  intros Hc. assert (m_type (b_meta (ready zero VHeadings (bmi_new zero r)) VHeadings) = TNone) as Ht.
  { destruct (ready_meta zero VHeadings (bmi_new zero r)) as [_ ->]; [apply (used_inv zero); constructor|]. cbn [info b_meta b_rm bmi_new meta_new m_init].
    by rewrite decide_False by lia. }
  unfold f_get_char1, get_type. cbv zeta. by rewrite Ht.
Qed.

Lemma f_error_read (bb : bmi D) len k jk :
  m_init (b_meta bb VErrorString) = true -> m_type (b_meta bb VErrorString) = TString ->
  m_nbytes (b_meta bb VErrorString) = 0 -> m_itemsize (b_meta bb VErrorString) = Z.of_nat k ->
  (m_dim (b_meta bb VErrorString) = 0 \/ m_dim (b_meta bb VErrorString) = 1) ->
  exists bb', f_get_char zero dbytes VErrorString len jk bb = FGot (f_assign len (f_assign k jk)) bb' /\ b_rm bb' = b_rm bb /\
    m_init (b_meta bb' VErrorString) = true /\ m_type (b_meta bb' VErrorString) = TString /\
    m_nbytes (b_meta bb' VErrorString) = 0 /\ m_itemsize (b_meta bb' VErrorString) = Z.of_nat (length (r_errors (b_rm bb))) /\
    m_dim (b_meta bb' VErrorString) = m_dim (b_meta bb VErrorString).
Proof using.
  intros Bi Bt Bn Bw Bd. unfold f_get_char, get_type, get_itemsize, ready. rewrite Bi. cbv zeta. rewrite Bt. cbn [ftype].
  rewrite String.eqb_refl. rewrite Bi. destruct (error_read bb Bi Bt Bd) as (b3 & G & E1 & E2 & E3 & E4 & E5 & E6).
  rewrite G, Bn, copied_eq by (rewrite ?app_length; lia). rewrite Bw, Nat2Z.id.
  change (take (Z.to_nat 0) (r_errors (b_rm bb) ++ [nul])) with (@nil byte).
  rewrite store_front by (cbn; lia). cbn [f_of fbind app length drop]. exists b3. rewrite E1, E5, E6, E2. done.
Qed.
Lemma f_error_twice (b0 : bmi D) (r' : rm D) len junk junk' :
  m_init (b_meta b0 VErrorString) = true -> m_type (b_meta b0 VErrorString) = TString ->
  m_nbytes (b_meta b0 VErrorString) = 0 -> m_itemsize (b_meta b0 VErrorString) = 0 ->
  (m_dim (b_meta b0 VErrorString) = 0 \/ m_dim (b_meta b0 VErrorString) = 1) ->
  exists b2 b3, f_get_char zero dbytes VErrorString len junk (do_op zero (Change r') b0) = FGot (replicate len " "%char) b2 /\
    f_get_char zero dbytes VErrorString len junk' b2 = FGot (f_assign len (f_assign (length (r_errors r')) junk')) b3.
Proof using.
  intros Hi Ht Hn Hw Hd.
  destruct (f_error_read (do_op zero (Change r') b0) len 0%nat junk Hi Ht Hn Hw Hd) as (b2 & G & Er2 & Ji & Jt & Jn & Jw & Jd).
  destruct (f_error_read b2 len _ junk' Ji Jt Jn Jw) as (b3 & G' & _); [by rewrite Jd|].
  exists b2, b3. cbn [do_op b_rm] in G'. split; [|done]. rewrite G. f_equal.
  assert (f_assign 0 junk = []) as -> by (apply nil_length_inv, f_assign_length).
  unfold f_assign. rewrite firstn_nil. cbn [length app]. by rewrite Nat.sub_0_r.
Qed.
(** C82, refuted: ErrorString in Fortran. After a FindComponents without errors the first request for the text of a
    later error gives blanks, and the second one whatever was in the memory of the temporary. *)
Theorem f_error_refuted (b : bmi D) (r r' : rm D) len junk junk' :
  used zero b -> r_rows r = r_rows (b_rm b) -> r_errors r = [] ->
  let b1 := do_op zero (Change r') (find_components zero r b) in
  exists b2 b3, f_get_char zero dbytes VErrorString len junk b1 = FGot (replicate len " "%char) b2 /\
    f_get_char zero dbytes VErrorString len junk' b2 = FGot (f_assign len (f_assign (length (r_errors r')) junk')) b3.
Proof using.
  intros Hu Hr He. cbv zeta.
  pose proof (used_inv zero _ (Used_op zero (Find r) b Hu Hr) VErrorString) as (_ & Hd & _). specialize (Hd (or_introl eq_refl)).
  cbn [do_op] in Hd. pose proof (find_slot r b VErrorString) as E.
  generalize dependent (find_components zero r b). intros b0 Hd E. cbn [info set_init m_init] in E. unfold size_z in E. rewrite He in E.
  apply f_error_twice; [by rewrite E..|done].
Qed.

(** C82: selected outputs are numbered from 1 in Fortran: SetNthSelectedOutput gets one less, if the name of the
    variable is spelled "NthSelectedOutput". Refuted for the other spellings that the module takes (a name in lower
    case, say): there it gets the number itself, and selects the next one. *)
Lemma f_nth_set_gen (b : bmi D) name n :
  used zero b -> -2147483647 <= n < 2147483648 -> get_enum (f_trim name) = Some VNth ->
  exists b1, f_set_int zero name n b = FGot true b1 /\
    r_nth (b_rm b1) = Some (if String.eqb (f_trim name) "NthSelectedOutput" then n - 1 else n).
Proof using.
  intros Hu Hn He. apply used_inv in Hu. unfold f_set_int. rewrite He.
  destruct (get_type zero VNth b) as [t b1] eqn:Et.
  destruct (get_type_described _ _ _ _ Hu Et) as (-> & [(Ht & Hb & Hw & Hd) Hi] & Hi1 & Er1). rewrite Ht. cbn [ftype]. rewrite String.eqb_refl.
  cbv zeta. set (k := if String.eqb (f_trim name) "NthSelectedOutput" then n - 1 else n).
  assert (-2147483648 <= k < 2147483648) as Hk by (subst k; case_match; lia). clearbody k.
  unfold set_void, ready. rewrite Hi. cbv zeta. rewrite Ht, Hb, Hw. rewrite decide_False by lia.
  change (Z.quot 4 4) with 1. rewrite decide_True by done. rewrite decide_True by (cbn; lia). rewrite int_read_int_bytes by done.
  unfold put, ready. rewrite Hi. unfold var_fn. cbn. eexists. split; [reflexivity|]. cbn. unfold info_ex. rewrite Hi. done.
Qed.
Theorem f_nth_set (b : bmi D) name n :
  used zero b -> -2147483647 <= n < 2147483648 -> f_trim name = "NthSelectedOutput"%string ->
  exists b1, f_set_int zero name n b = FGot true b1 /\ r_nth (b_rm b1) = Some (n - 1).
Proof using.
  intros Hu Hn Ht. destruct (f_nth_set_gen b name n Hu Hn) as (b1 & E & H); [by rewrite Ht|].
  rewrite Ht in H. cbn in H. by exists b1.
Qed.
Theorem f_nth_spelling_refuted (b : bmi D) name n :
  used zero b -> -2147483647 <= n < 2147483648 -> get_enum (f_trim name) = Some VNth -> f_trim name <> "NthSelectedOutput"%string ->
  exists b1, f_set_int zero name n b = FGot true b1 /\ r_nth (b_rm b1) = Some n.
Proof using.
  intros Hu Hn He Ht. destruct (f_nth_set_gen b name n Hu Hn He) as (b1 & E & H).
  apply String.eqb_neq in Ht. rewrite Ht in H. by exists b1.
Qed.

End Props.

(** C82: the grid. From C++ the grid of a variable has the rank, the size and the type that the BMI asks for; from C and
    Fortran (refuted) the grid a variable is said to be on has rank and size 0, and in Fortran no grid at all has all three. *)
Theorem grid_consistent nxyz :
  grid_rank Cpp (var_grid Cpp) = 1 /\ grid_size Cpp nxyz (var_grid Cpp) = nxyz /\ grid_type Cpp (var_grid Cpp) = "points"%string.
Proof. done. Qed.
Theorem grid_refuted nxyz :
  0 < nxyz ->
  (forall l, l <> Cpp -> grid_rank l (var_grid l) = 0 /\ grid_size l nxyz (var_grid l) <> nxyz) /\
  ~ exists g, grid_rank Fortran g = 1 /\ grid_size Fortran nxyz g = nxyz /\ grid_type Fortran g = "points"%string.
Proof.
  intros H. split.
  - intros [] Hl; try done; (split; [done|unfold grid_size, var_grid; rewrite decide_False by done; lia]).
  - intros (g & Hr & _ & Ht). revert Hr Ht. unfold grid_rank, grid_type. repeat case_decide; try done. lia.
Qed.

(** ** Cases that meet the hypotheses *)
Section Example.
Definition ex_dbytes (z : Z) : text := int_bytes z ++ int_bytes 0.
Definition ex_rm (errors : text) : rm Z :=
  Rm [chars "H"; chars "Charge"; chars "Ca"] errors (chars "run") true 2 1 2 2 [chars "pH"; chars "pe"] (fun _ => [7; 8; 4; -4]%Z)
     [3; 5]%Z [chars "la"] None.
Definition ex_b : bmi Z := find_components 0%Z (ex_rm []) (bmi_new 0%Z (ex_rm [])).
Lemma ex_used : used 0%Z ex_b.
Proof. exact (Used_op 0%Z (Find (ex_rm [])) _ (Used_new 0%Z (ex_rm [])) eq_refl). Qed.
Lemma ex_dbytes_size d : length (ex_dbytes d) = 8%nat.
Proof. done. Qed.

(** All variables that can be relied on are there. *)
Example reliable_example : forall v, v <> VErrorString -> v <> VNth -> v <> VOn -> reliable v (ex_rm []).
Proof. intros v. destruct v; cbn; try done; intros; split_and?; try lia. exists [7; 8; 4; -4]%Z. done. Qed.

Example announced_example :
  match get_void 0%Z ex_dbytes VComponents ex_b with Got bytes _ => bytes = chars "H     ChargeCa    " | _ => False end /\
  match get_void 0%Z ex_dbytes VHeadings ex_b with Got bytes _ => bytes = chars "pHpe" | _ => False end /\
  match get_void 0%Z ex_dbytes VCount ex_b with Got bytes _ => int_read bytes = 2 | _ => False end.
Proof. split_and!; vm_compute; done. Qed.

(** Errors met after FindComponents are not shown through memory, and are shown as a string. *)
Example error_example :
  let b := do_op 0%Z (Change (ex_rm (chars "ERROR"))) ex_b in
  match get_void 0%Z ex_dbytes VErrorString b with Got bytes _ => bytes = [] | _ => False end /\
  match get_string 0%Z VErrorString b with Got s _ => s = chars "ERROR" | _ => False end.
Proof. split_and!; vm_compute; done. Qed.

(** A text that has become shorter is read past its end. *)
Example error_undefined_example :
  let b := do_op 0%Z (Change (ex_rm [])) (find_components 0%Z (ex_rm (chars "ERROR")) (bmi_new 0%Z (ex_rm []))) in
  get_void 0%Z ex_dbytes VErrorString b = Undefined.
Proof. vm_compute. done. Qed.

Example f_names_example :
  match f_get_char1 0%Z ex_dbytes VComponents [] ex_b with
  | FGot cells _ => cells = [chars "H     "; chars "Charge"; chars "Ca    "]
  | _ => False end.
Proof. vm_compute. done. Qed.
Example f_prefix_example :
  match f_get_char 0%Z ex_dbytes VFilePrefix 5 [] ex_b with FGot s _ => s = chars "run  " | _ => False end.
Proof. vm_compute. done. Qed.
Example f_error_example :
  let b := do_op 0%Z (Change (ex_rm (chars "ERROR"))) ex_b in
  match f_get_char 0%Z ex_dbytes VErrorString 6 (chars "abcdefgh") (snd (fetch 0%Z VErrorString b)) with
  | FGot s _ => s = chars "abcde " | _ => False end.
Proof. vm_compute. done. Qed.

(** The spellings of f_nth_set and f_nth_spelling_refuted. *)
Example spelling_example :
  f_trim "NthSelectedOutput  " = "NthSelectedOutput"%string /\
  get_enum (f_trim "nthselectedoutput") = Some VNth /\ f_trim "nthselectedoutput" <> "NthSelectedOutput"%string.
Proof. vm_compute. done. Qed.

(** The switch is on, its four bytes are the caller's but for the first, and setting it to 1 from C switches it off. *)
Example on_example :
  match rm_get_value_int 0%Z VOn (chars "wxyz") ex_b with Got m _ => m = byte_of 1 :: chars "xyz" | _ => False end /\
  r_on (b_rm (snd (rm_set_value_int 0%Z VOn 1 (do_op 0%Z (Read VCount) ex_b)))) = false /\
  m_init (b_meta ex_b VOn) = true.
Proof. vm_compute. done. Qed.
Example c_text_example :
  match rm_get_value_char 0%Z ex_dbytes VFilePrefix (chars "abcdefg") 7 ex_b with
  | Got (Some m) _ => m = chars "run" ++ nul :: chars "efg" | _ => False end /\
  match rm_get_value_char 0%Z ex_dbytes VFilePrefix (chars "abc") 3 ex_b with Got None _ => True | _ => False end.
Proof. vm_compute. done. Qed.
Example prefix_example :
  match set_void 0%Z VFilePrefix (chars "new" ++ [nul]) ex_b with
  | Some (true, b) => match get_string 0%Z VFilePrefix b with Got s _ => s = chars "new" | _ => False end | _ => False end.
Proof. vm_compute. done. Qed.
Example one_number_example :
  let r := Rm [] [] [] true 1 1 1 1 [chars "pH"] (fun _ => [7]%Z) [] [] None in
  match get_void 0%Z ex_dbytes VSelectedOutput (bmi_new 0%Z r) with Got bytes _ => bytes = ex_dbytes 0 /\ bytes <> ex_dbytes 7 | _ => False end.
Proof. vm_compute. done. Qed.
End Example.

Print Assumptions announced_delivered.
Print Assumptions texts_current.
Print Assumptions error_text_cut.
Print Assumptions error_text_lost_refuted.
Print Assumptions on_announced_refuted.
Print Assumptions on_read_by_c.
Print Assumptions on_set_bool.
Print Assumptions prefix_set.
Print Assumptions prefix_set_memory_refuted.
Print Assumptions prefix_set_memory.
Print Assumptions on_set_by_c_refuted.
Print Assumptions components_stale_refuted.
Print Assumptions one_number_refuted.
Print Assumptions c_text_delivered.
Print Assumptions c_on_overflow_refuted.
Print Assumptions f_logical_delivered.
Print Assumptions f_prefix_delivered.
Print Assumptions f_components_delivered.
Print Assumptions f_headings_delivered.
Print Assumptions f_no_components_refuted.
Print Assumptions f_no_headings_refuted.
Print Assumptions f_error_refuted.
Print Assumptions f_nth_set.
Print Assumptions f_nth_spelling_refuted.
Print Assumptions grid_consistent.
Print Assumptions grid_refuted.
