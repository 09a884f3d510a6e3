(** Calls from C and Fortran: the property theorems. *)
From Coq Require Import String Ascii ZArith Lia.
From stdpp Require Import prelude strings.
From Verif.Base Require Import Result.
From Verif.Wrap Require Import Model.
From Verif.Yaml Require Import Model Spec Proofs Props.
From Verif.Direct Require Import Model Spec Proofs.
Local Open Scope string_scope.

(** * C97 What is recorded does what would have been called *)

(** In C and in Fortran: what is recorded is what the caller means by the calls, *)
Theorem recorded_as_meant D l k (c c' : call D) : meant l c c' -> sized k c' -> recorded_as l c = Ret c'.
Proof. apply recorded_meant. Qed.
(** and reading the document has the effect, on an instance in any state, that the calls on it would have had. *)
Theorem replay_as_direct D (N : numbers D) (one : D) St (run : call D -> St -> outcome St) cnt l cs cs' s :
  faithful N -> one_array one run cnt -> Forall2 (meant l) cs cs' -> Forall (alike l) cs' -> Forall ints_ok cs' ->
  sized_along run cnt cs' s -> Forall (fun c => exists k, sized k c) cs' ->
  exists taped, tape l cs = Ret taped /\
    initialize N run (record N taped) s = drive one run cnt l cs s.
Proof.
  intros HN Ho Hm Ha Hi Hs Hz. exists cs'. split; [by apply tape_meant|]. clear Hz. revert s Hs. rewrite record_map.
  induction Hm as [|c c' cs cs' H1 H2 IH]; intros s Hs; [done|].
  apply Forall_cons in Ha as [Ha1 Ha2]. apply Forall_cons in Hi as [Hi1 Hi2]. destruct Hs as [Hs1 Hs2].
  cbn [map initialize drive]. rewrite (direct_meant one l (cnt s) c c') by done. cbn [obind].
  rewrite called_runs by done.
  rewrite read_emit; [|done| |done]. 2:{ by destruct c'. }
  cbn [obind]. destruct (setup c') eqn:E.
  - destruct c'; try discriminate E; cbn [obind]; apply IH; try done; by apply Hs2.
  - destruct (run c' s) as [s1| |] eqn:Er; cbn [obind].
    + apply IH; try done. by apply Hs2.
    + done.
    + done.
Qed.

(** Not so: in Fortran, messages that are called get an end of line that recorded ones lack, *)
Definition keep (c : call bool) (s : list (call bool)) : outcome (list (call bool)) := Ret (s ++ [c])%list.
Definition two_cells (s : list (call bool)) : counts := Counts 2 2 0 0 1 0%Z 0%Z.
Theorem replay_fortran_messages_refuted :
  exists cs cs', Forall2 (meant F) cs cs' /\ tape F cs = Ret cs' /\
    initialize demo_fun keep (record demo_fun cs') [] =
      Ret [YOutputMessage "x"; YScreenMessage "y"; YWarningMessage "z"] /\
    drive true keep two_cells F cs [] =
      Ret [YOutputMessage ("x" +:+ nl); YScreenMessage "y"; YScreenMessage nl; YWarningMessage ("z" +:+ nl)].
Proof.
  exists [YOutputMessage "x  "; YScreenMessage "y"; YWarningMessage "z "],
    [YOutputMessage "x"; YScreenMessage "y"; YWarningMessage "z"].
  split; [|by vm_compute].
  assert (forall a n, a <> " "%char -> a <> "000"%char -> text_of F (String a (blanks n)) (String a "")) as Ht.
  { intros a n H1 H2. split; [by intros [?|[]]|]. split; [|by exists n].
    intros ([|b u] & e & He & Hb); [injection He as ->; by apply H1|].
    injection He as -> He. by destruct u. }
  repeat (apply Forall2_cons_2 || apply Forall2_nil_2); cbn [meant].
  - by apply (Ht "x"%char 2).
  - by apply (Ht "y"%char 0).
  - by apply (Ht "z"%char 1).
Qed.
(** the numbers of SetNthSelectedOutput count from 1 when called and are recorded unchanged, and the document is not
    read at all; nor is one with a message for the log, in either language; *)
Theorem replay_unread_refuted :
  drive true keep two_cells F [YSetNthSelectedOutput 1%Z] [] = Ret [YSetNthSelectedOutput 0%Z] /\
  tape F [YSetNthSelectedOutput 1%Z : call bool] = Ret [YSetNthSelectedOutput 1%Z] /\
  initialize demo_fun keep (record demo_fun [YSetNthSelectedOutput 1%Z]) [] = Throw /\
  forall l, tape l [YLogMessage "x" : call bool] = Ret [YLogMessage "x"] /\
    initialize demo_fun keep (record demo_fun [YLogMessage "x"]) [] = Throw /\
    exists t, drive true keep two_cells l [YLogMessage "x"] [] = Ret [YLogMessage t].
Proof. split_and!; try by vm_compute. intros l. split_and!; [by destruct l; vm_compute|by vm_compute|]. destruct l; eexists; by vm_compute. Qed.
(** and names that begin with a blank: C drops the blank from a name that is called but records it. *)
Theorem replay_names_refuted :
  tape C [YLoadDatabase " a.dat" : call bool] = Ret [YLoadDatabase " a.dat"] /\
  drive true keep two_cells C [YLoadDatabase " a.dat"] [] = Ret [YLoadDatabase "a.dat"] /\
  initialize demo_fun keep (record demo_fun [YLoadDatabase " a.dat"]) [] = Ret [YLoadDatabase " a.dat"].
Proof. by vm_compute. Qed.

(** Fractions and second cells of other lengths than the first: the Fortran recorder stops; the C one reads past their
    ends when they are shorter and leaves out the rest when they are longer. *)
Theorem recorded_mix_lengths D (a b : list Z) (f : list D) :
  let c := YInitialPhreeqc2Module_mix a b f in
  (recorded_as F c = Ret c <-> length b = length a /\ length f = length a) /\
  (recorded_as F c = Throw <-> ~ (length b = length a /\ length f = length a)) /\
  (recorded_as C c = UB <-> length b < length a \/ length f < length a) /\
  (forall b' f', length b = length a -> length f = length a ->
    recorded_as C (YInitialPhreeqc2Module_mix a (b ++ b') (f ++ f')) = Ret c).
Proof.
  cbn [recorded_as]. split_and!.
  - case_decide as H; split; intros; try done; lia.
  - case_decide as H; split; intros; try done; lia.
  - case_decide as H; split; intros; try done; lia.
  - intros b' f' Hb Hf. rewrite decide_True by (rewrite !app_length; lia). by rewrite <- Hb at 1; rewrite take_app, <- Hf, take_app.
Qed.

(** A run in each language: the hypotheses of [replay_as_direct] hold, with an instance of two cells. *)
Definition step7 (c : call bool) (s : list (call bool)) : outcome (list (call bool)) :=
  Ret (s ++ [match c with
             | YInitialPhreeqc2Module a => YInitialPhreeqc2Module_mix a (replicate 14 (-1)%Z) (replicate 14 true)
             | _ => c end])%list.
Definition demo_f : list (call bool) :=
  [YSetGridCellCount 2; YLoadDatabase "p.dat   "; YSetPorosity [true; false]; YInitialPhreeqc2Module (replicate 14 1%Z);
   YRunFile true false true "in  "; YRunCells].
Definition demo_m : list (call bool) :=
  [YSetGridCellCount 2; YLoadDatabase "p.dat"; YSetPorosity [true; false]; YInitialPhreeqc2Module (replicate 14 1%Z);
   YRunFile true false true "in"; YRunCells].
Lemma demo_text (t : string) l n : ~ has_nul t -> ~ ends_in is_blank t ->
  text_of l (match l with C => t | F => t +:+ blanks n end) t.
Proof. intros H1 H2. split; [done|]. destruct l; [done|]. split; [done|by exists n]. Qed.
Fixpoint final (t : string) : option ascii :=
  match t with EmptyString => None | String a "" => Some a | String _ u => final u end.
Lemma ends_final bad t : ends_in bad t -> exists a, final t = Some a /\ bad a.
Proof.
  intros (u & a & -> & Ha). exists a. split; [|done]. induction u as [|b u IH]; [done|].
  change (String b u +:+ String a "") with (String b (u +:+ String a "")). cbn [final]. rewrite IH. by destruct u.
Qed.
Ltac no_end := intros (?a & ?He & ?Hb)%ends_final; vm_compute in He; injection He as <-;
  unfold is_blank, is_name_end, is_space in *; vm_compute in Hb; repeat destruct Hb as [Hb|Hb]; try discriminate Hb; try lia.
Ltac no_begin := intros (?u & ?a & ?He & ?Hb); injection He as <- <-;
  unfold is_space in *; vm_compute in Hb; repeat destruct Hb as [Hb|Hb]; try discriminate Hb; try lia.
Ltac no_nul := vm_compute; intros; repeat match goal with H : _ \/ _ |- _ => destruct H as [H|H] end; (done || discriminate).

Lemma demo_along {St} (run : call bool -> St -> outcome St) s : sized_along run (fun _ => Counts 2 2 0 0 1 0%Z 0%Z) demo_m s.
Proof. unfold demo_m. cbn [sized_along sized n_xyz]. split_and!; try done; intros ? _; repeat (split; [done || (cbn; lia)|intros ? _]); done. Qed.
Example demo_direct :
  let cnt (_ : list (call bool)) := Counts 2 2 0 0 1 0%Z 0%Z in
  Forall2 (meant F) demo_f demo_m /\ Forall2 (meant C) demo_m demo_m /\ (forall l, Forall (alike l) demo_m) /\
  Forall ints_ok demo_m /\ (forall s, sized_along step7 cnt demo_m s) /\ one_array true step7 cnt /\
  Forall (fun c => exists k, sized k c) demo_m /\
  drive true step7 cnt F demo_f [] = initialize demo_fun step7 (record demo_fun demo_m) [] /\
  drive true step7 cnt C demo_m [] = initialize demo_fun step7 (record demo_fun demo_m) [] /\
  exists r, drive true step7 cnt F demo_f [] = Ret r /\ length r = 5.
Proof.
  assert (forall l n, text_of l (match l with C => "p.dat" | F => "p.dat" +:+ blanks n end) "p.dat") as H1.
  { intros l n. apply demo_text; [no_nul|no_end]. }
  assert (forall l n, text_of l (match l with C => "in" | F => "in" +:+ blanks n end) "in") as H2.
  { intros l n. apply demo_text; [no_nul|no_end]. }
  split_and!.
  - repeat (apply Forall2_cons_2 || apply Forall2_nil_2); cbn [meant]; try reflexivity; [apply (H1 F 3)|split_and!; try done; apply (H2 F 2)].
  - repeat (apply Forall2_cons_2 || apply Forall2_nil_2); cbn [meant]; try reflexivity; [apply (H1 C 3)|split_and!; try done; apply (H2 C 2)].
  - intros l. repeat (apply Forall_cons_2 || apply Forall_nil_2); cbn [alike]; try done; destruct l; cbn [tidy]; try split; try no_end; no_begin.
  - repeat constructor; cbn; try done; lia.
  - intros s. apply demo_along.
  - intros a s. done.
  - repeat constructor; exists (Counts 2 2 0 0 1 0%Z 0%Z); cbn; try done; lia.
  - by vm_compute.
  - by vm_compute.
  - eexists. by vm_compute.
Qed.

Print Assumptions recorded_as_meant.
Print Assumptions replay_as_direct.
Print Assumptions replay_fortran_messages_refuted.
Print Assumptions replay_unread_refuted.
Print Assumptions replay_names_refuted.
Print Assumptions recorded_mix_lengths.
