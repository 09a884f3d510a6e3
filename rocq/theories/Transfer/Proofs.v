From Coq Require Import Ascii String Sorting.Sorted.
From stdpp Require Import prelude strings pretty gmap.
From Verif.Base Require Import Result.
From Verif.Names Require Import Model Spec Proofs.
From Verif.Partition Require Import Spec EndCellsProofs.
From Verif.Core Require Import Move MoveProofs.
From Verif.Transfer Require Import Model Spec.

(** ** Maps filled in the order of their keys *)
Lemma kset_last {K V} (cmp : K -> K -> comparison) (l : list (K * V)) k v :
  (forall p, p ∈ l -> cmp k p.1 = Gt) -> kset cmp k v l = l ++ [(k, v)].
Proof.
  induction l as [|[n w] l IH]; intros H; [done|]. cbn [kset app].
  assert (E : cmp k n = Gt) by (apply (H (n, w)); by left). rewrite E, IH; [done|]. intros p Hp. apply H. by right.
Qed.
Lemma kset_fold {K V} (cmp : K -> K -> comparison) (R : K -> K -> Prop) (l acc : list (K * V)) :
  (forall a b, R a b -> cmp b a = Gt) ->
  StronglySorted (fun p q => R p.1 q.1) l ->
  (forall p q, p ∈ acc -> q ∈ l -> R p.1 q.1) ->
  fold_left (fun a p => kset cmp p.1 p.2 a) l acc = acc ++ l.
Proof.
  intros Hc. revert acc. induction l as [|[k v] l IH]; intros acc Hs Ha.
  { by rewrite app_nil_r. }
  apply StronglySorted_inv in Hs as [Hs Hf]. rewrite Forall_forall in Hf. cbn [fold_left fst snd].
  rewrite kset_last.
  - rewrite IH; [by rewrite <- app_assoc|done|].
    intros p q Hp Hq. apply elem_of_app in Hp as [Hp|Hp]; [apply Ha; [done|by right]|].
    apply elem_of_list_singleton in Hp as ->. by apply Hf.
  - intros p Hp. apply Hc, (Ha p (k, v)); [done|by left].
Qed.

(** ** The texts of the pairs *)
Lemma digit_no_hash x : pretty_N_char x <> "#"%char.
Proof. unfold pretty_N_char. repeat case_match; done. Qed.
Lemma go_no_hash x s : ~ has_char "#"%char s -> ~ has_char "#"%char (pretty_N_go x s).
Proof.
  revert s. induction (N.lt_wf_0 x) as [x _ IH]. intros s Hs.
  destruct (decide (0 < x)%N) as [Hx|Hx].
  - rewrite pretty_N_go_step by done. apply IH; [by apply N.div_lt|].
    intros [H|H]; [by apply (digit_no_hash (x mod 10))|done].
  - assert (x = 0%N) as -> by lia. by rewrite pretty_N_go_0.
Qed.
Lemma pretty_no_hash (n : nat) : ~ has_char "#"%char (pretty n).
Proof.
  unfold pretty, pretty_nat, pretty, pretty_N. case_decide; [by intros [?|[]]|].
  apply go_no_hash. intros [].
Qed.
Lemma split_at_hash a a' b b' :
  ~ has_char "#"%char a -> ~ has_char "#"%char a' ->
  (a +:+ "#" +:+ b = a' +:+ "#" +:+ b')%string -> a = a' /\ b = b'.
Proof.
  revert a'. induction a as [|c a IH]; intros [|c' a'] H H' E; cbn [has_char] in *;
    repeat match type of E with context [String ?x ?y +:+ ?z] =>
      change (String x y +:+ z) with (String x (y +:+ z)) in E end.
  - by injection E.
  - injection E as <- _. tauto.
  - injection E as -> _. tauto.
  - injection E as -> E. destruct (IH a') as [-> ->]; [tauto..|done|done].
Qed.
Lemma tp_key_inj o n o' n' : tp_key o n = tp_key o' n' -> o = o' /\ n = n'.
Proof.
  intros E. apply split_at_hash in E as [E1 E2]; [|apply pretty_no_hash..].
  split; by apply (inj pretty).
Qed.

Section Proofs.
Context {D : Type} (dcmp : D -> D -> comparison) (d1 : D).
Local Notation writer := (writer (D := D)).
Local Notation stream := (stream (D := D)).

Definition apps (a b : stream) : stream := (a.1 ++ b.1, a.2 ++ b.2).
Lemma apps_assoc a b c : apps (apps a b) c = apps a (apps b c).
Proof. unfold apps. simpl. by rewrite <- !app_assoc. Qed.

(** What the writer does to the dictionary *)
Definition extends (w : writer) : Prop :=
  forall d, dict_ok d -> Forall printable (d_words d) ->
    dict_ok (w d).1 /\ Forall printable (d_words (w d).1) /\ d_words d `prefix_of` d_words (w d).1.
(** The reader undoes the writer, whatever is written later. *)
Definition faithful {A} (w : writer) (r : reader A) (a : A) : Prop :=
  extends w /\
  forall d, dict_ok d -> Forall printable (d_words d) ->
    forall ws rest, d_words (w d).1 `prefix_of` ws -> r ws (apps (w d).2 rest) = Ret (a, rest).

Lemma extends_nil : extends w_nil.
Proof. intros d H1 H2. done. Qed.
Lemma extends_then v w : extends v -> extends w -> extends (w_then v w).
Proof.
  intros Hv Hw d H1 H2. unfold w_then. cbn [fst snd].
  destruct (Hv d H1 H2) as (A1 & A2 & A3). destruct (Hw _ A1 A2) as (B1 & B2 & B3).
  split_and!; [done..|]. by etrans.
Qed.
Lemma faithful_ret {A} (a : A) : faithful w_nil (r_ret a) a.
Proof. split; [apply extends_nil|]. intros d _ _ ws [i x] _. done. Qed.
Lemma faithful_then {A B} v w (r : reader A) (k : A -> reader B) a b :
  faithful v r a -> faithful w (k a) b -> faithful (w_then v w) (r_bind r k) b.
Proof.
  intros [Ev Fv] [Ew Fw]. split; [by apply extends_then|].
  intros d H1 H2 ws rest Hp. unfold w_then in *. cbn [fst snd] in *.
  destruct (Ev d H1 H2) as (A1 & A2 & A3). destruct (Ew _ A1 A2) as (B1 & B2 & B3).
  unfold r_bind.
  assert (E : apps ((v d).2.1 ++ (w (v d).1).2.1, (v d).2.2 ++ (w (v d).1).2.2) rest
              = apps (v d).2 (apps (w (v d).1).2 rest)).
  { unfold apps. simpl. by rewrite <- !app_assoc. }
  rewrite E, (Fv d H1 H2) by by etrans. by apply Fw.
Qed.
Lemma faithful_last {A B} w (r : reader A) (a : A) (f : A -> B) (b : B) :
  faithful w r a -> b = f a -> faithful w (r_bind r (fun x => r_ret (f x))) b.
Proof.
  intros [E F] ->. split; [done|]. intros d H1 H2 ws rest Hp. unfold r_bind. by rewrite F.
Qed.
Lemma faithful_int z : faithful (w_int z) r_int z.
Proof. split; [intros d H1 H2; done|]. intros d _ _ ws [i x] _. done. Qed.
Lemma faithful_dbl x : faithful (w_dbl x) r_dbl x.
Proof. split; [intros d H1 H2; done|]. intros d _ _ ws [i y] _. done. Qed.
Lemma faithful_bool b : faithful (w_bool b) r_bool b.
Proof. split; [intros d H1 H2; done|]. intros d _ _ ws [i y] _. by destruct b. Qed.
Lemma faithful_word s : printable s -> faithful (w_word s) r_word s.
Proof.
  intros Hs. split.
  - intros d H1 H2. unfold w_word. cbn [fst snd]. destruct (d_find_spec s d H1) as (A & B & C & E).
    split_and!; [done| |by apply d_find_prefix].
    destruct (decide (s ∈ d_words d)) as [Hi|Hn].
    + by rewrite C.
    + destruct (E Hn) as [_ ->]. apply Forall_app. split; [done|]. by constructor.
  - intros d H1 _ ws [i x] Hp. unfold w_word in *. cbn [fst snd] in *.
    destruct (d_find_spec s d H1) as (_ & B & _). unfold r_word, r_bind, r_int, apps. cbn [fst snd app].
    unfold word_at. destruct (Z.ltb_spec (Z.of_nat (d_find s d).1) 0); [lia|].
    rewrite Nat2Z.id. destruct Hp as [k ->]. by rewrite (lookup_app_l_Some _ _ _ _ B).
Qed.

(** ** Counted elements *)
Lemma faithful_times {X A} (f : X -> writer) (step : A -> reader A) (u : A -> X -> A) (l : list X) acc :
  (forall x acc, x ∈ l -> faithful (f x) (step acc) (u acc x)) ->
  faithful (w_seq (map f l)) (r_times (length l) step acc) (fold_left u l acc).
Proof.
  revert acc. induction l as [|x l IH]; intros acc H; cbn [map w_seq foldr length r_times fold_left].
  { apply faithful_ret. }
  eapply faithful_then; [apply H; by left|]. apply IH. intros y a Hy. apply H. by right.
Qed.
Lemma faithful_count {X A} (f : X -> writer) (step : A -> reader A) (u : A -> X -> A) (l : list X) acc b :
  (forall x acc, x ∈ l -> faithful (f x) (step acc) (u acc x)) -> fold_left u l acc = b ->
  faithful (w_list f l) (r_count step acc) b.
Proof.
  intros H <-. unfold w_list, r_count. eapply faithful_then; [apply faithful_int|].
  rewrite Nat2Z.id. by apply faithful_times.
Qed.
Lemma fold_app_map {X Y} (g : X -> Y) (l : list X) acc :
  fold_left (fun a x => a ++ [g x]) l acc = acc ++ map g l.
Proof.
  revert acc. induction l as [|x l IH]; intros acc; cbn [fold_left map]; [by rewrite app_nil_r|].
  by rewrite IH, <- app_assoc.
Qed.
Lemma faithful_list {X Y} (f : X -> writer) (r : reader Y) (g : X -> Y) (l : list X) b :
  (forall x, x ∈ l -> faithful (f x) r (g x)) -> b = map g l -> faithful (w_list f l) (r_list r) b.
Proof.
  intros H ->. unfold r_list. apply (faithful_count _ _ (fun a x => a ++ [g x])).
  - intros x acc Hx. eapply faithful_last; [by apply H|done].
  - by rewrite fold_app_map.
Qed.
Lemma faithful_list_id {X} (f : X -> writer) (r : reader X) (P : X -> Prop) (l : list X) :
  (forall x, P x -> faithful (f x) r x) -> Forall P l -> faithful (w_list f l) (r_list r) l.
Proof.
  intros H HF. apply (faithful_list _ _ id); [|by rewrite map_id].
  intros x Hx. apply H. rewrite Forall_forall in HF. by apply HF.
Qed.
Lemma faithful_doubles l : faithful (w_list w_dbl l) (r_list r_dbl) l.
Proof. apply (faithful_list_id _ _ (fun _ => True)); [intros; apply faithful_dbl|by apply Forall_true]. Qed.
Lemma faithful_names l : good_names l -> faithful (w_names l) r_names l.
Proof.
  intros [Ho Hn]. unfold w_names, r_names. apply (faithful_count _ _ (fun a p => nd_set p.1 p.2 a)).
  - intros [n v] acc Hx. destruct (Hn n v Hx) as [H1 H2]. cbn [fst snd].
    eapply faithful_then; [by apply faithful_word|]. rewrite decide_False by done.
    eapply faithful_last; [apply faithful_dbl|done].
  - by apply fold_set_id.
Qed.
Lemma faithful_imap l : rising l -> faithful (w_imap l) r_imap l.
Proof.
  intros Hl. unfold w_imap, r_imap. apply (faithful_count _ _ (fun a p => kset Z.compare p.1 p.2 a)).
  - intros [k v] acc _. eapply faithful_then; [apply faithful_int|].
    eapply faithful_last; [apply faithful_dbl|done].
  - rewrite (kset_fold _ Z.lt); [done| |done|by intros p q ?%elem_of_nil].
    intros a b H. by apply Z.compare_gt_iff.
Qed.
Lemma fold_ext {X A} (u v : A -> X -> A) (l : list X) acc :
  (forall a x, x ∈ l -> u a x = v a x) -> fold_left u l acc = fold_left v l acc.
Proof.
  revert acc. induction l as [|x l IH]; intros acc H; cbn [fold_left]; [done|].
  rewrite H by by left. apply IH. intros a y Hy. apply H. by right.
Qed.
Lemma faithful_named {X} (f : X -> writer) (r : reader X) (name : X -> string) (P : X -> Prop) (l : nmap X) :
  (forall x, P x -> faithful (f x) r x) -> ordered l -> (forall n c, (n, c) ∈ l -> name c = n /\ P c) ->
  faithful (w_named f l) (r_named r name) l.
Proof.
  intros H Ho Hn. unfold w_named, r_named. apply (faithful_count _ _ (fun a p => nd_set (name p.2) p.2 a)).
  - intros [n c] acc Hx. eapply faithful_last; [apply H; by apply (Hn n c)|done].
  - rewrite (fold_ext _ (fun a p => nd_set p.1 p.2 a)); [by apply fold_set_id|].
    intros a [n c] Hx. cbn [fst snd]. by rewrite (proj1 (Hn n c Hx)).
Qed.

(** ** The classes *)
Ltac step :=
  lazymatch goal with
  | |- faithful w_nil _ _ => apply faithful_ret
  | |- faithful (w_then _ _) _ _ => eapply faithful_then
  | |- faithful (w_int _) _ _ => apply faithful_int
  | |- faithful (w_dbl _) _ _ => apply faithful_dbl
  | |- faithful (w_bool _) _ _ => apply faithful_bool
  | |- faithful (w_word _) _ _ => apply faithful_word; done
  | |- faithful (w_names _) _ _ => apply faithful_names; done
  | |- faithful (w_imap _) _ _ => apply faithful_imap; done
  | |- faithful (w_list w_dbl _) _ _ => apply faithful_doubles
  end.

Lemma faithful_exch_comp x : good_exch_comp x -> faithful (w_exch_comp x) r_exch_comp x.
Proof. intros (? & ? & ? & ?). unfold w_exch_comp, r_exch_comp, w_seq. cbn [foldr]. destruct x. repeat step. Qed.
Lemma faithful_exchange x : good_exchange x -> faithful (w_exchange x) r_exchange (arrived_exchange x).
Proof.
  intros [H ?]. unfold w_exchange, r_exchange, w_seq. cbn [foldr]. destruct x. repeat step.
  by eapply faithful_list_id; [apply faithful_exch_comp|].
Qed.
Lemma faithful_gas_comp x : printable (gc_name x) -> faithful (w_gas_comp x) r_gas_comp x.
Proof. intros ?. unfold w_gas_comp, r_gas_comp, w_seq. cbn [foldr]. destruct x. repeat step. Qed.
Lemma faithful_gas_phase x : good_gas_phase x -> faithful (w_gas_phase x) r_gas_phase (arrived_gas_phase x).
Proof.
  intros [H ?]. unfold w_gas_phase, r_gas_phase, w_seq, arrived_gas_phase. cbn [foldr].
  assert (E : (if (match gp_kind x with GP_PRESSURE => 0 | _ => 1 end =? 0)%Z then GP_PRESSURE else GP_VOLUME)
              = match gp_kind x with GP_PRESSURE => GP_PRESSURE | _ => GP_VOLUME end) by by destruct (gp_kind x).
  rewrite <- E. destruct x. repeat step.
  by eapply faithful_list_id; [apply faithful_gas_comp|].
Qed.
Lemma faithful_kin_comp x : good_kin_comp x -> faithful (w_kin_comp x) r_kin_comp (arrived_kin_comp x).
Proof. intros (? & ? & ?). unfold w_kin_comp, r_kin_comp, w_seq. cbn [foldr]. destruct x. repeat step. Qed.
Lemma faithful_kinetics x : good_kinetics x -> faithful (w_kinetics x) r_kinetics (arrived_kinetics x).
Proof.
  intros [H ?]. unfold w_kinetics, r_kinetics, w_seq. cbn [foldr]. destruct x. repeat step.
  apply (faithful_list _ _ arrived_kin_comp); [|done]. intros c Hc. apply faithful_kin_comp.
  cbn in H. rewrite Forall_forall in H. by apply H.
Qed.
Lemma faithful_pp_comp x : good_pp_comp x -> faithful (w_pp_comp x) r_pp_comp x.
Proof. intros (? & ? & ?). unfold w_pp_comp, r_pp_comp, w_seq. cbn [foldr]. destruct x. repeat step. Qed.
Lemma faithful_pp x : good_pp x -> faithful (w_pp x) r_pp (arrived_pp x).
Proof.
  intros (? & ? & ? & ?). unfold w_pp, r_pp, w_seq. cbn [foldr]. destruct x. repeat step.
  by eapply faithful_named; [apply faithful_pp_comp|..].
Qed.
Lemma faithful_ss_comp x : printable (sc_name x) -> faithful (w_ss_comp x) r_ss_comp x.
Proof. intros ?. unfold w_ss_comp, r_ss_comp, w_seq. cbn [foldr]. destruct x. repeat step. Qed.
Lemma faithful_solid x : good_solid x -> faithful (w_solid x) r_solid x.
Proof.
  intros (? & H & ?). unfold w_solid, r_solid, w_seq. cbn [foldr]. destruct x. repeat step.
  by eapply faithful_list_id; [apply faithful_ss_comp|].
Qed.
Lemma faithful_ssa x : good_ssa x -> faithful (w_ssa x) r_ssa (arrived_ssa x).
Proof.
  intros (? & ? & ?). unfold w_ssa, r_ssa, w_seq. cbn [foldr]. destruct x. repeat step.
  by eapply faithful_named; [apply faithful_solid|..].
Qed.
Lemma faithful_surf_comp x : good_surf_comp x -> faithful (w_surf_comp x) r_surf_comp x.
Proof. intros (? & ? & ? & ? & ? & ?). unfold w_surf_comp, r_surf_comp, w_seq. cbn [foldr]. destruct x. repeat step. Qed.
Lemma faithful_surf_dl x : faithful (w_surf_dl x) r_surf_dl x.
Proof. unfold w_surf_dl, r_surf_dl, w_seq. cbn [foldr]. destruct x. repeat step. Qed.

Context (dcmp_gt : forall a b, dcmp a b = Lt -> dcmp b a = Gt).

Lemma faithful_surf_charge x : good_surf_charge dcmp x ->
  faithful (w_surf_charge x) (r_surf_charge dcmp) (arrived_surf_charge x).
Proof.
  intros (? & ? & Hg & ?). unfold w_surf_charge, r_surf_charge, w_seq. cbn [foldr]. destruct x. repeat step.
  apply (faithful_count _ _ (fun a p => kset dcmp p.1 p.2 a)).
  - intros [k v] acc _. cbn [fst snd]. eapply faithful_then; [apply faithful_dbl|].
    eapply faithful_last; [apply faithful_surf_dl|done].
  - rewrite (kset_fold _ (fun a b => dcmp a b = Lt)); [done|done|done|by intros p q ?%elem_of_nil].
Qed.
Lemma faithful_surface x : good_surface dcmp x ->
  faithful (w_surface x) (r_surface dcmp) (arrived_surface x).
Proof.
  intros (Hc & Hh & ?). unfold w_surface, r_surface, w_seq. cbn [foldr]. destruct x. repeat step.
  - by eapply faithful_list_id; [apply faithful_surf_comp|].
  - apply (faithful_list _ _ arrived_surf_charge); [|done]. intros c Hi. apply faithful_surf_charge.
    cbn in Hh. rewrite Forall_forall in Hh. by apply Hh.
Qed.
Lemma faithful_isotope x : printable (is_elt x) -> printable (is_name x) -> faithful (w_isotope x) r_isotope x.
Proof. intros ? ?. unfold w_isotope, r_isotope, w_seq. cbn [foldr]. destruct x. repeat step. Qed.
Lemma faithful_solution x : good_solution x -> faithful (w_solution x) (r_solution d1) (arrived_solution d1 x).
Proof.
  intros (? & ? & ? & Ho & Hi & ? & ? & ?). unfold w_solution, r_solution, w_seq. cbn [foldr]. destruct x.
  repeat step. apply (faithful_count _ _ (fun a p => nd_set p.1 p.2 a)).
  - intros [n i] acc Hx. cbn [fst snd]. destruct (Hi n i Hx) as (I1 & I2 & I3).
    eapply faithful_then; [by apply faithful_word|]. eapply faithful_last; [by apply faithful_isotope|done].
  - by apply fold_set_id.
Qed.

(** ** Entities *)
Local Notation reactants := (reactants (D := D)).
Inductive runs (ws : list string) : reactants -> stream -> reactants -> Prop :=
| RunsEnd ph x : runs ws ph ([], x) ph
| RunsStep ph s ph1 s1 ph' :
    s.1 <> [] -> r_entity dcmp d1 ph ws s = Ret (ph1, s1) -> length s1.1 < length s.1 ->
    runs ws ph1 s1 ph' -> runs ws ph s ph'.
Lemma runs_loop ws ph s ph' : runs ws ph s ph' ->
  forall fuel, length s.1 <= fuel -> r_entities dcmp d1 fuel ph ws s = Ret ph'.
Proof.
  induction 1 as [ph x|ph s ph1 s1 ph' Hne Er Hl _ IH]; intros fuel Hf.
  { by destruct fuel. }
  destruct fuel as [|fuel]; [destruct (s.1); [done|simpl in Hf; lia]|]. cbn [r_entities].
  destruct (s.1) as [|z zs] eqn:Es; [done|]. rewrite Er. apply IH. lia.
Qed.

(** The writer [w] makes the receiver apply [u]. *)
Definition enters (w : writer) (u : reactants -> reactants) : Prop :=
  extends w /\
  forall d, dict_ok d -> Forall printable (d_words d) ->
    forall ws rest ph ph', d_words (w d).1 `prefix_of` ws ->
      runs ws (u ph) rest ph' -> runs ws ph (apps (w d).2 rest) ph'.
Lemma enters_nil : enters w_nil id.
Proof. split; [apply extends_nil|]. intros d _ _ ws [i x] ph ph' _ H. exact H. Qed.
Lemma enters_then v w u1 u2 : enters v u1 -> enters w u2 -> enters (w_then v w) (fun ph => u2 (u1 ph)).
Proof.
  intros [Ev Fv] [Ew Fw]. split; [by apply extends_then|].
  intros d H1 H2 ws rest ph ph' Hp Hr. unfold w_then in *. cbn [fst snd] in *.
  destruct (Ev d H1 H2) as (A1 & A2 & A3). destruct (Ew _ A1 A2) as (B1 & B2 & B3).
  assert (E : apps ((v d).2.1 ++ (w (v d).1).2.1, (v d).2.2 ++ (w (v d).1).2.2) rest
              = apps (v d).2 (apps (w (v d).1).2 rest)).
  { unfold apps. simpl. by rewrite <- !app_assoc. }
  rewrite E. apply Fv; [done..|by etrans|]. by apply Fw.
Qed.
Lemma enters_entity z w u :
  (forall ph, faithful (w_then (w_int z) w) (r_entity dcmp d1 ph) (u ph)) -> enters (w_then (w_int z) w) u.
Proof.
  intros H. split.
  - by apply (H (Reactants ∅ ∅ ∅ ∅ ∅ ∅ ∅ ∅ ∅ ∅ ∅)).
  - intros d H1 H2 ws rest ph ph' Hp Hr. eapply (RunsStep _ _ _ (u ph) rest); [..|done].
    + done.
    + by apply H.
    + unfold apps, w_then, w_int. cbn [fst snd]. rewrite !app_length. simpl. lia.
Qed.
Lemma enters_ext w u v : (forall ph, u ph = v ph) -> enters w u -> enters w v.
Proof. intros H [E F]. split; [done|]. intros d ? ? ws rest ph ph' ? Hr. rewrite <- H in Hr. by apply F. Qed.

Definition recv {A} (arrive : A -> A) (from : gmap Z A) (i : Z) (m : gmap Z A) : gmap Z A :=
  match from !! i with Some x => <[i := arrive x]> m | None => m end.
Definition recv_all {A} (arrive : A -> A) (from : gmap Z A) (ks : list Z) (m : gmap Z A) : gmap Z A :=
  fold_left (fun m i => recv arrive from i m) ks m.
Lemma recv_all_spec {A} (arrive : A -> A) ks (from into : gmap Z A) :
  received arrive ks from into (recv_all arrive from ks into).
Proof.
  unfold recv_all. revert into. induction ks as [|i ks IH]; intros into n; [done|].
  cbn [fold_left]. rewrite IH. unfold recv.
  destruct (decide (n ∈ ks)) as [Hn|Hn].
  - rewrite decide_True by by right. destruct (from !! n) as [x|] eqn:E; [done|].
    destruct (decide (n = i)) as [-> | Hne]; [by rewrite E|].
    destruct (from !! i); [by rewrite lookup_insert_ne|done].
  - destruct (decide (n = i)) as [-> | Hne].
    + rewrite decide_True by by left. destruct (from !! i); [by rewrite lookup_insert|done].
    + rewrite decide_False by (rewrite elem_of_cons; tauto).
      destruct (from !! i); [by rewrite lookup_insert_ne|done].
Qed.

Definition recv_cells (from : reactants) (ks : list Z) (ph : reactants) : reactants :=
  Reactants (recv_all (arrived_solution d1) (ph_sol from) ks (ph_sol ph))
    (recv_all arrived_exchange (ph_ex from) ks (ph_ex ph))
    (recv_all arrived_gas_phase (ph_gas from) ks (ph_gas ph))
    (recv_all arrived_kinetics (ph_kin from) ks (ph_kin ph))
    (recv_all arrived_pp (ph_pp from) ks (ph_pp ph))
    (recv_all arrived_ssa (ph_ss from) ks (ph_ss ph))
    (recv_all arrived_surface (ph_surf from) ks (ph_surf ph)) (ph_temp ph) (ph_press ph) (ph_mix ph) (ph_react ph).

Lemma enters_opt {A} tag (f : A -> writer) (r : reader A) (num : A -> Z) (good : A -> Prop) arrive
  (from : gmap Z A) i (u : gmap Z A -> reactants -> reactants) (get : reactants -> gmap Z A) :
  (forall x, good x -> faithful (f x) r (arrive x)) ->
  (forall x, num (arrive x) = num x) ->
  (forall ph ws s, r_entity dcmp d1 ph ws (tag :: s.1, s.2) =
     r_bind r (fun x => r_ret (u (<[num x := x]> (get ph)) ph)) ws s) ->
  (forall ph, u (get ph) ph = ph) ->
  (forall x, from !! i = Some x -> num x = i /\ good x) ->
  enters (w_opt tag f (from !! i)) (fun ph => u (recv arrive from i (get ph)) ph).
Proof.
  intros Hf Hn Hr Hu Hg. unfold recv. destruct (from !! i) as [x|] eqn:E; cbn [w_opt].
  - destruct (Hg x eq_refl) as [<- Hx]. apply enters_entity. intros ph.
    destruct (Hf x Hx) as [Ex Fx]. split; [apply extends_then; [by intros d ? ?|done]|].
    intros d H1 H2 ws rest Hp. unfold w_then, w_int, apps in *. cbn [fst snd app] in *.
    change (_, _) with (tag :: (apps (f x d).2 rest).1, (apps (f x d).2 rest).2) at 1.
    rewrite Hr. unfold r_bind, apps. rewrite Fx by done. unfold r_ret. by rewrite Hn.
  - eapply enters_ext; [|apply enters_nil]. intros ph. cbn. by rewrite Hu.
Qed.

Lemma enters_cell from i ks : good_cells dcmp ks from -> i ∈ ks ->
  enters (w_cell false false from i) (recv_cells from [i]).
Proof.
  intros (H1 & H2 & H3 & H4 & H5 & H6 & H7) Hi.
  unfold w_cell, w_seq. cbn [foldr].
  eapply enters_ext; [|
    eapply enters_then; [apply (enters_opt 0 _ (r_solution d1) so_n good_solution (arrived_solution d1) _ _
      (fun m ph => Reactants m (ph_ex ph) (ph_gas ph) (ph_kin ph) (ph_pp ph) (ph_ss ph) (ph_surf ph) (ph_temp ph) (ph_press ph) (ph_mix ph) (ph_react ph)) ph_sol)|
    eapply enters_then; [apply (enters_opt 1 _ r_exchange ex_n good_exchange arrived_exchange _ _
      (fun m ph => Reactants (ph_sol ph) m (ph_gas ph) (ph_kin ph) (ph_pp ph) (ph_ss ph) (ph_surf ph) (ph_temp ph) (ph_press ph) (ph_mix ph) (ph_react ph)) ph_ex)|
    eapply enters_then; [apply (enters_opt 2 _ r_gas_phase gp_n good_gas_phase arrived_gas_phase _ _
      (fun m ph => Reactants (ph_sol ph) (ph_ex ph) m (ph_kin ph) (ph_pp ph) (ph_ss ph) (ph_surf ph) (ph_temp ph) (ph_press ph) (ph_mix ph) (ph_react ph)) ph_gas)|
    eapply enters_then; [apply (enters_opt 3 _ r_kinetics ki_n good_kinetics arrived_kinetics _ _
      (fun m ph => Reactants (ph_sol ph) (ph_ex ph) (ph_gas ph) m (ph_pp ph) (ph_ss ph) (ph_surf ph) (ph_temp ph) (ph_press ph) (ph_mix ph) (ph_react ph)) ph_kin)|
    eapply enters_then; [apply (enters_opt 4 _ r_pp pp_n good_pp arrived_pp _ _
      (fun m ph => Reactants (ph_sol ph) (ph_ex ph) (ph_gas ph) (ph_kin ph) m (ph_ss ph) (ph_surf ph) (ph_temp ph) (ph_press ph) (ph_mix ph) (ph_react ph)) ph_pp)|
    eapply enters_then; [apply (enters_opt 5 _ r_ssa sa_n good_ssa arrived_ssa _ _
      (fun m ph => Reactants (ph_sol ph) (ph_ex ph) (ph_gas ph) (ph_kin ph) (ph_pp ph) m (ph_surf ph) (ph_temp ph) (ph_press ph) (ph_mix ph) (ph_react ph)) ph_ss)|
    eapply enters_then; [apply (enters_opt 6 _ (r_surface dcmp) su_n (good_surface dcmp) arrived_surface _ _
      (fun m ph => Reactants (ph_sol ph) (ph_ex ph) (ph_gas ph) (ph_kin ph) (ph_pp ph) (ph_ss ph) m (ph_temp ph) (ph_press ph) (ph_mix ph) (ph_react ph)) ph_surf)|
    eapply enters_then; [apply enters_nil|eapply enters_then; apply enters_nil]]]]]]]]].
  { intros ph. reflexivity. }
  all: try (intros ph ws s; destruct ph; reflexivity).
  all: try (intros ph; destruct ph; reflexivity).
  all: try (intros x; reflexivity).
  all: try (intros x Hx; match goal with H : sendable ?n _ _ _ |- ?n _ = _ /\ _ => by apply H end).
  - intros x. apply faithful_solution.
  - intros x. apply faithful_exchange.
  - intros x. apply faithful_gas_phase.
  - intros x. apply faithful_kinetics.
  - intros x. apply faithful_pp.
  - intros x. apply faithful_ssa.
  - intros x. apply faithful_surface.
Qed.
Lemma enters_cells from ks ks' : good_cells dcmp ks from -> ks' ⊆ ks ->
  enters (w_seq (map (w_cell false false from) ks')) (recv_cells from ks').
Proof.
  intros Hg. induction ks' as [|i ks' IH]; intros Hs; cbn [map w_seq foldr].
  - eapply enters_ext; [|apply enters_nil]. intros []. reflexivity.
  - eapply enters_ext; [|eapply enters_then; [apply (enters_cell _ _ ks); [done|set_solver]|apply IH; set_solver]].
    intros ph. reflexivity.
Qed.

Lemma drop_cells_spec {A} ks (m : gmap Z A) : released ks m (drop_cells ks m).
Proof.
  intros n. induction ks as [|i ks IH]; [done|]. cbn [drop_cells foldr].
  destruct (decide (n = i)) as [-> | Hne].
  - rewrite lookup_delete. by rewrite decide_True by by left.
  - rewrite lookup_delete_ne by done. change (foldr delete m ks) with (drop_cells ks m). rewrite IH.
    destruct (decide (n ∈ ks)); [by rewrite decide_True by by right|].
    rewrite decide_False by (rewrite elem_of_cons; tauto). done.
Qed.

Lemma send_spec from into ks : good_cells dcmp ks from ->
  send_cells dcmp d1 ks from into = Ret (delete_cells ks from, recv_cells from ks into).
Proof.
  intros Hg. destruct (enters_cells from ks ks Hg) as [E F]; [done|].
  unfold send_cells, decode, encode.
  destruct (E empty_dict empty_dict_ok) as (O & P & _); [constructor|].
  set (q := w_seq (map (w_cell false false from) ks) empty_dict) in *.
  rewrite dict_rebuild by done.
  rewrite (runs_loop _ _ _ (recv_cells from ks into)); [done| |done].
  specialize (F empty_dict empty_dict_ok (Forall_nil_2 _) (d_words q.1) ([], []) into
                (recv_cells from ks into)).
  unfold apps in F. fold q in F. cbn [fst snd] in F. rewrite !app_nil_r in F.
  destruct q as [dq [iq xq]]. cbn [fst snd] in *. apply F; [done|constructor].
Qed.

(** ** The plan *)
Section Plan.
Context (count : Z) (ss es ss' es' : list Z) (V : valid_split count ss es) (V' : valid_split count ss' es').

(** Every list of cells is of cells that go from the one process to the other. *)
Definition planned (tp : nmap (nat * nat * list Z)) : Prop :=
  ordered tp /\
  forall key o n ks, (key, (o, n, ks)) ∈ tp -> key = tp_key o n /\ (o <> n /\ o < length es /\ n < length es') /\
    forall k, k ∈ ks -> (0 <= k < count)%Z /\ owns ss es o k /\ owns ss' es' n k.
Definition in_plan (tp : nmap (nat * nat * list Z)) (k : Z) : Prop :=
  exists key o n ks, (key, (o, n, ks)) ∈ tp /\ k ∈ ks.

Lemma plan_loop_spec ks : StronglySorted Z.lt ks -> Forall (fun k => (0 <= k < count)%Z) ks ->
  forall old nnew tp, planned tp ->
  (forall k o, k ∈ ks -> owns ss es o k -> old <= o) ->
  (forall k o, k ∈ ks -> owns ss' es' o k -> nnew <= o) ->
  exists tp', plan_loop es es' ks old nnew tp = Ret tp' /\ planned tp' /\
    (forall k, in_plan tp k -> in_plan tp' k) /\
    (forall k o n, k ∈ ks -> owns ss es o k -> owns ss' es' n k -> o <> n -> in_plan tp' k).
Proof.
  induction ks as [|k ks IH]; intros Hsort Hin old nnew tp Hp Hold Hnew.
  { exists tp. split_and!; [done..|]. by intros ? ? ? ?%elem_of_nil. }
  apply Forall_cons in Hin as [Hk Hin]. apply StronglySorted_inv in Hsort as [Hsort Hlt].
  destruct (valid_split_owner_exists _ _ _ _ V Hk) as [o Ho].
  destruct (valid_split_owner_exists _ _ _ _ V' Hk) as [n Hn].
  cbn [plan_loop]. rewrite (advance_owner _ _ _ o k _ V Ho), (advance_owner _ _ _ n k _ V' Hn).
  2: by apply (Hnew k); [by left|]. 2: by apply (Hold k); [by left|].
  assert (Hold' : forall k0 o0, k0 ∈ ks -> owns ss es o0 k0 -> o <= o0).
  { intros k0 o0 Hk0 H0. eapply owner_mono; [exact V|exact Ho|exact H0|].
    pose proof (proj1 (Forall_forall _ _) Hlt k0 Hk0). lia. }
  assert (Hnew' : forall k0 o0, k0 ∈ ks -> owns ss' es' o0 k0 -> n <= o0).
  { intros k0 o0 Hk0 H0. eapply owner_mono; [exact V'|exact Hn|exact H0|].
    pose proof (proj1 (Forall_forall _ _) Hlt k0 Hk0). lia. }
  destruct (decide (o = n)) as [-> | Hne].
  - destruct (IH Hsort Hin n n tp Hp Hold' Hnew') as (tp' & E & P & K & N).
    exists tp'. split_and!; [done..|]. intros k0 o0 n0 Hk0 H1 H2 Hx.
    apply elem_of_cons in Hk0 as [-> | Hk0]; [|by eapply N].
    destruct Hx. rewrite (valid_split_owner_unique _ _ _ _ _ _ V H1 Ho).
    by rewrite (valid_split_owner_unique _ _ _ _ _ _ V' H2 Hn).
  - destruct Hp as [Po Pe].
    set (e := default (o, n, []) (nd_find (tp_key o n) tp)).
    assert (He : e.1 = (o, n) /\ (forall k, k ∈ e.2 -> (0 <= k < count)%Z /\ owns ss es o k /\ owns ss' es' n k)
                 /\ (forall x, (tp_key o n, x) ∈ tp -> x = e)).
    { unfold e. destruct (nd_find (tp_key o n) tp) as [[[o1 n1] ks1]|] eqn:Ef; cbn [default fst snd].
      - apply nd_find_some in Ef; [|done]. destruct (Pe _ _ _ _ Ef) as (Hkey & _ & Hks).
        apply tp_key_inj in Hkey as [<- <-]. split_and!; [done..|].
        intros x Hx. by eapply ordered_fun.
      - split_and!; [done|by intros ? ?%elem_of_nil|]. intros x Hx.
        by apply (proj1 (nd_find_none _ _ Po) Ef) in Hx. }
    destruct He as (He1 & He2 & He3). rewrite He1.
    destruct (IH Hsort Hin o n (nd_set (tp_key o n) (o, n, e.2 ++ [k]) tp)) as (tp' & E & P & K & N).
    { split; [by apply nd_set_ordered|]. intros key o1 n1 ks1 Hx. apply nd_set_elem in Hx; [|done].
      destruct Hx as [[-> [= -> -> ->]]|[_ Hx]]; [|by apply Pe].
      split_and!; [done|done|by destruct Ho as (? & ? & ? & ?%lookup_lt_Some & ?)|
        by destruct Hn as (? & ? & ? & ?%lookup_lt_Some & ?)|].
      intros k0 Hk0. apply elem_of_app in Hk0 as [Hk0|Hk0]; [by apply He2|].
      by apply elem_of_list_singleton in Hk0 as ->. }
    { done. }
    { done. }
    assert (Hnow : forall k0, in_plan tp k0 \/ k0 = k -> in_plan (nd_set (tp_key o n) (o, n, e.2 ++ [k]) tp) k0).
    { intros k0 H. destruct H as [(key & o1 & n1 & ks1 & Hx & Hk0)| ->].
      - destruct (decide (key = tp_key o n)) as [-> | Hkey].
        + exists (tp_key o n), o, n, (e.2 ++ [k]). split; [apply nd_set_elem; [done|by left]|].
          rewrite (surjective_pairing e), He1 in He3. apply He3 in Hx as [= -> -> ->].
          apply elem_of_app. by left.
        + exists key, o1, n1, ks1. split; [|done]. apply nd_set_elem; [done|]. by right.
      - exists (tp_key o n), o, n, (e.2 ++ [k]). split; [apply nd_set_elem; [done|by left]|].
        apply elem_of_app. right. by apply elem_of_list_singleton. }
    exists tp'. split_and!; [done..| |].
    + intros k0 Hk0. apply K, Hnow. by left.
    + intros k0 o0 n0 Hk0 H1 H2 Hx. apply elem_of_cons in Hk0 as [-> | Hk0]; [|by eapply N].
      apply K, Hnow. by right.
Qed.
Lemma plan_spec : exists tp, plan_loop es es' (cells_upto count) 0 0 [] = Ret tp /\ planned tp /\
  (forall k o n, (0 <= k < count)%Z -> owns ss es o k -> owns ss' es' n k -> o <> n -> in_plan tp k).
Proof.
  destruct (plan_loop_spec (cells_upto count) (seq_sorted _ _)) with (old := 0) (nnew := 0)
    (tp := @nil (string * (nat * nat * list Z))) as (tp & E & P & _ & N).
  - apply Forall_forall. intros k. apply elem_of_cells_upto.
  - split; [apply ordered_nil|]. by intros ? ? ? ? ?%elem_of_nil.
  - intros; lia.
  - intros; lia.
  - exists tp. split_and!; [done..|]. intros k o n Hk. apply N. by apply elem_of_cells_upto.
Qed.

(** What is left to do for a kind: cells outside [todo] are settled. *)
Definition underway {A} (arrive : A -> A) (get : reactants -> gmap Z A) (todo : Z -> Prop)
    (ws0 ws : list reactants) : Prop :=
  forall k p, (todo k -> on get ws p k = on get ws0 p k) /\
    (forall o n, ~ todo k -> (0 <= k < count)%Z -> owns ss es o k -> owns ss' es' n k ->
       on get ws p k = if decide (p = n) then
                        (if decide (o = n) then on get ws0 o k else arrive <$> on get ws0 o k)
                      else None) /\
    (~ (0 <= k < count)%Z -> on get ws p k = on get ws0 p k).
Lemma underway_step {A} num good (arrive : A -> A) (get : reactants -> gmap Z A) (todo : Z -> Prop) ws0 ws
  o n ks wo wn wo' wn' :
  placed num good count ss es get ws0 -> o <> n ->
  (forall k, k ∈ ks -> (0 <= k < count)%Z /\ owns ss es o k /\ owns ss' es' n k) ->
  (forall k, {todo k} + {~ todo k}) ->
  ws !! o = Some wo -> ws !! n = Some wn ->
  released ks (get wo) (get wo') -> received arrive ks (get wo) (get wn) (get wn') ->
  underway arrive get todo ws0 ws ->
  underway arrive get (fun k => todo k /\ k ∉ ks) ws0 (<[n := wn']> (<[o := wo']> ws)).
Proof.
  intros Hpl Hne Hks Hdec Ho Hn Hrel Hrec Hu k p.
  assert (Lo : o < length ws) by by eapply lookup_lt_Some.
  assert (Ln : n < length ws) by by eapply lookup_lt_Some.
  assert (Eo : forall k, get wo !! k = on get ws o k) by (intros; unfold on; by rewrite Ho).
  assert (En : forall k, get wn !! k = on get ws n k) by (intros; unfold on; by rewrite Hn).
  assert (New : forall p k, on get (<[n := wn']> (<[o := wo']> ws)) p k =
     if decide (p = n) then get wn' !! k else if decide (p = o) then get wo' !! k else on get ws p k).
  { intros q k0. unfold on. destruct (decide (q = n)) as [-> | H1].
    - rewrite list_lookup_insert; [done|by rewrite insert_length].
    - rewrite list_lookup_insert_ne by done. destruct (decide (q = o)) as [-> | H2].
      + by rewrite list_lookup_insert.
      + by rewrite list_lookup_insert_ne. }
  assert (Keep : k ∉ ks -> on get (<[n := wn']> (<[o := wo']> ws)) p k = on get ws p k).
  { intros Hk. rewrite New. destruct (decide (p = n)) as [-> | H1].
    - by rewrite Hrec, decide_False, En.
    - destruct (decide (p = o)) as [-> | H2]; [|done]. by rewrite Hrel, decide_False, Eo. }
  destruct (Hu k p) as (U1 & U2 & U3). split_and!.
  - intros [H1 H2]. rewrite Keep by done. by apply U1.
  - intros o1 n1 Ht Hc H1 H2. destruct (decide (k ∈ ks)) as [Hk|Hk].
    2:{ rewrite Keep by done. apply U2; [|done..]. tauto. }
    destruct (Hks k Hk) as (_ & K1 & K2).
    rewrite (valid_split_owner_unique _ _ _ _ _ _ V H1 K1), (valid_split_owner_unique _ _ _ _ _ _ V' H2 K2).
    rewrite New. rewrite (decide_False (P := o = n)) by done.
    destruct (Hdec k) as [Ht'|Ht'].
    + assert (Hn0 : on get ws n k = None).
      { rewrite (proj1 (Hu k n) Ht'). unfold on. destruct (ws0 !! n) as [w|] eqn:Ew; [|done].
        destruct (get w !! k) as [x|] eqn:Ex; [|done].
        destruct (Hpl _ _ _ _ Ew Hc Ex) as (Hown & _).
        destruct Hne. exact (valid_split_owner_unique _ _ _ _ _ _ V K1 Hown). }
      destruct (decide (p = n)) as [-> | Hpn].
      * rewrite Hrec, decide_True by done. rewrite Eo, (proj1 (Hu k o) Ht'), En, Hn0.
        by destruct (on get ws0 o k).
      * destruct (decide (p = o)) as [-> | Hpo].
        { by rewrite Hrel, decide_True. }
        rewrite U1 by done. unfold on. destruct (ws0 !! p) as [w|] eqn:Ew; [|done].
        destruct (get w !! k) as [x|] eqn:Ex; [|done].
        destruct (Hpl _ _ _ _ Ew Hc Ex) as (Hown & _).
        destruct Hpo. exact (valid_split_owner_unique _ _ _ _ _ _ V Hown K1).
    + destruct (Hu k o) as (_ & O2 & _). specialize (O2 o n Ht' Hc K1 K2).
      rewrite decide_False in O2 by done.
      destruct (Hu k n) as (_ & N2 & _). specialize (N2 o n Ht' Hc K1 K2).
      rewrite decide_True, decide_False in N2 by done.
      specialize (U2 o n Ht' Hc K1 K2). rewrite (decide_False (P := o = n)) in U2 by done.
      destruct (decide (p = n)) as [-> | Hpn].
      * rewrite Hrec, decide_True by done. by rewrite Eo, O2, En.
      * destruct (decide (p = o)) as [-> | Hpo]; [by rewrite Hrel, decide_True|done].
  - intros Hc. rewrite Keep; [by apply U3|]. intros Hk. by apply Hc, Hks.
Qed.

Lemma in_plan_dec tp k : {in_plan tp k} + {~ in_plan tp k}.
Proof.
  induction tp as [|[key [[o n] ks]] tp IH].
  - right. by intros (? & ? & ? & ? & ?%elem_of_nil & _).
  - destruct (decide (k ∈ ks)) as [Hk|Hk].
    + left. exists key, o, n, ks. split; [by left|done].
    + destruct IH as [H|H].
      * left. destruct H as (key1 & o1 & n1 & ks1 & H1 & H2). exists key1, o1, n1, ks1. split; [by right|done].
      * right. intros (key1 & o1 & n1 & ks1 & H1 & H2). apply elem_of_cons in H1 as [[= -> -> -> ->]|H1]; [done|].
        apply H. by exists key1, o1, n1, ks1.
Qed.
Lemma in_plan_cons key o n ks tp k : in_plan ((key, (o, n, ks)) :: tp) k <-> k ∈ ks \/ in_plan tp k.
Proof.
  unfold in_plan. split.
  - intros (key1 & o1 & n1 & ks1 & H1 & H2). apply elem_of_cons in H1 as [[= -> -> -> ->]|H1]; [by left|].
    right. by exists key1, o1, n1, ks1.
  - intros [H|(key1 & o1 & n1 & ks1 & H1 & H2)].
    + exists key, o, n, ks. split; [by left|done].
    + exists key1, o1, n1, ks1. split; [by right|done].
Qed.
Lemma underway_iff {A} (arrive : A -> A) get (todo todo' : Z -> Prop) ws0 ws :
  (forall k, todo k <-> todo' k) -> underway arrive get todo ws0 ws -> underway arrive get todo' ws0 ws.
Proof.
  intros H Hu k p. destruct (Hu k p) as (U1 & U2 & U3). split_and!; [|..|done].
  - intros Hk. apply U1. by apply H.
  - intros o n Hk. apply U2. by rewrite H.
Qed.
Lemma underway_sendable {A} num good (arrive : A -> A) (get : reactants -> gmap Z A) (todo : Z -> Prop) ws0 ws
  o n ks wo :
  placed num good count ss es get ws0 -> o <> n ->
  (forall k, k ∈ ks -> (0 <= k < count)%Z /\ owns ss es o k /\ owns ss' es' n k) ->
  (forall k, {todo k} + {~ todo k}) ->
  ws !! o = Some wo -> underway arrive get todo ws0 ws -> sendable num good ks (get wo).
Proof.
  intros Hpl Hne Hks Hdec Ho Hu k x Hk Hx. destruct (Hks k Hk) as (Hc & K1 & K2).
  assert (E : on get ws o k = Some x) by (unfold on; by rewrite Ho).
  destruct (Hu k o) as (U1 & U2 & _). destruct (Hdec k) as [Ht|Ht].
  - rewrite U1 in E by done. unfold on in E. destruct (ws0 !! o) as [w|] eqn:Ew; [|done].
    by destruct (Hpl _ _ _ _ Ew Hc E) as (_ & ? & ?).
  - rewrite (U2 o n) in E by done. by rewrite decide_False in E.
Qed.

Definition under_all (todo : Z -> Prop) (ws0 ws : list reactants) : Prop :=
  underway (arrived_solution d1) ph_sol todo ws0 ws /\ underway arrived_exchange ph_ex todo ws0 ws /\
  underway arrived_gas_phase ph_gas todo ws0 ws /\ underway arrived_kinetics ph_kin todo ws0 ws /\
  underway arrived_pp ph_pp todo ws0 ws /\ underway arrived_ssa ph_ss todo ws0 ws /\
  underway arrived_surface ph_surf todo ws0 ws.

Lemma send_all_spec ws0 tp : all_placed dcmp count ss es ws0 -> planned tp -> length es' = length es ->
  forall (todo : Z -> Prop) ws, (forall k, {todo k} + {~ todo k}) -> length ws = length es ->
  under_all todo ws0 ws ->
  exists ws', send_all dcmp d1 tp ws = Ret ws' /\ length ws' = length ws /\
    under_all (fun k => todo k /\ ~ in_plan tp k) ws0 ws'.
Proof.
  intros (P1 & P2 & P3 & P4 & P5 & P6 & P7) [_ Hp] Hl.
  induction tp as [|[key [[o n] ks]] tp IH]; intros todo ws Hdec Lw (U1 & U2 & U3 & U4 & U5 & U6 & U7).
  { exists ws. split_and!; [done..|].
    assert (Hiff : forall k, todo k <-> todo k /\ ~ in_plan [] k).
    { intros k. split; [|tauto]. intros H. split; [done|]. by intros (? & ? & ? & ? & ?%elem_of_nil & _). }
    split_and!; by apply (underway_iff _ _ _ _ _ _ Hiff). }
  destruct (Hp key o n ks) as (_ & (Hne & Lo & Ln) & Hks); [by left|].
  destruct (lookup_lt_is_Some_2 ws o) as [wo Ho]; [lia|].
  destruct (lookup_lt_is_Some_2 ws n) as [wn Hn]; [lia|].
  cbn [send_all]. rewrite Ho, Hn. rewrite send_spec.
  2:{ split_and!; eapply underway_sendable; eassumption. }
  cbn [obind fst snd].
  destruct (IH ltac:(intros; apply (Hp key0); by right)
    (fun k => todo k /\ k ∉ ks) (<[n := recv_cells wo ks wn]> (<[o := delete_cells ks wo]> ws)))
    as (ws' & E & L & U).
  { intros k. destruct (Hdec k); [|right; tauto]. destruct (decide (k ∈ ks)); [right; tauto|left; tauto]. }
  { by rewrite !insert_length. }
  { destruct wo, wn. split_and!; (eapply underway_step; [eassumption..| | |eassumption]);
      (apply drop_cells_spec || apply recv_all_spec). }
  exists ws'. rewrite !insert_length in L. split_and!; [done..|].
  assert (Hiff : forall k, (todo k /\ k ∉ ks) /\ ~ in_plan tp k <-> todo k /\ ~ in_plan ((key, (o, n, ks)) :: tp) k).
  { intros k. rewrite in_plan_cons. tauto. }
  destruct U as (W1 & W2 & W3 & W4 & W5 & W6 & W7).
  split_and!; by apply (underway_iff _ _ _ _ _ _ Hiff).
Qed.

Lemma underway_start {A} num good (arrive : A -> A) (get : reactants -> gmap Z A) (todo : Z -> Prop) ws :
  placed num good count ss es get ws ->
  (forall k o n, (0 <= k < count)%Z -> owns ss es o k -> owns ss' es' n k -> o <> n -> todo k) ->
  underway arrive get todo ws ws.
Proof.
  intros Hpl Ht k p. split_and!; [done| |done]. intros o n Hn Hc H1 H2.
  destruct (decide (o = n)) as [-> | Hne]; [|by destruct Hn; eapply Ht].
  destruct (decide (p = n)) as [-> | Hpn]; [done|].
  unfold on. destruct (ws !! p) as [w|] eqn:Ew; [|done]. destruct (get w !! k) as [x|] eqn:Ex; [|done].
  destruct (Hpl _ _ _ _ Ew Hc Ex) as (Hown & _).
  destruct Hpn. exact (valid_split_owner_unique _ _ _ _ _ _ V Hown H1).
Qed.
Lemma underway_end {A} (arrive : A -> A) (get : reactants -> gmap Z A) (todo : Z -> Prop) ws ws' :
  (forall k, ~ todo k) -> underway arrive get todo ws ws' -> settled arrive count ss es ss' es' get ws ws'.
Proof.
  intros Ht Hu. split.
  - intros k o n p Hc H1 H2. by apply (Hu k p).
  - intros k p Hc. by apply (Hu k p).
Qed.
End Plan.
End Proofs.
