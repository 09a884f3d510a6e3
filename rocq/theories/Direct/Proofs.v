(** Lemmas for calls from C and Fortran. *)
From Coq Require Import String Ascii ZArith Lia.
From stdpp Require Import prelude strings.
From Verif.Base Require Import Result.
From Verif.Wrap Require Import Model.
From Verif.Yaml Require Import Model Spec.
From Verif.Direct Require Import Model Spec.
Local Open Scope string_scope.

Lemma cstr_id t : ~ has_nul t -> cstr t = t.
Proof.
  induction t as [|a t IH]; intros H; [done|]. cbn [cstr]. cbn in H.
  destruct (Ascii.eqb_spec a "000") as [->|]; [by destruct H; left|]. rewrite IH; [done|]. intros H1. apply H. by right.
Qed.
Lemma ends_cons bad a t : ends_in bad t -> ends_in bad (String a t).
Proof. intros (u & b & -> & Hb). by exists (String a u), b. Qed.
Lemma rstrip_id p (bad : ascii -> Prop) t : (forall a, p a = true -> bad a) -> ~ ends_in bad t -> rstrip p t = t.
Proof.
  intros Hp. induction t as [|a t IH]; intros H; [done|]. cbn [rstrip].
  rewrite IH by (intros H1; apply H; by apply ends_cons).
  destruct t as [|b t]; [|done]. destruct (p a) eqn:E; [|done]. destruct H. exists "", a. split; [done|]. by apply Hp.
Qed.
Lemma lstrip_id p (bad : ascii -> Prop) t : (forall a, p a = true -> bad a) -> ~ begins_in bad t -> lstrip p t = t.
Proof.
  intros Hp H. destruct t as [|a t]; [done|]. cbn. destruct (p a) eqn:E; [|done]. destruct H. exists t, a. split; [done|].
  by apply Hp.
Qed.
Lemma rstrip_blanks n : rstrip blank (blanks n) = "".
Proof. induction n as [|n IH]; [done|]. cbn. by rewrite IH. Qed.
Lemma rstrip_tail t n : rstrip blank (t +:+ blanks n) = rstrip blank t.
Proof. induction t as [|a t IH]; [apply rstrip_blanks|]. change (String a t +:+ blanks n) with (String a (t +:+ blanks n)). cbn [rstrip]. by rewrite IH. Qed.
Lemma blank_is a : blank a = true -> is_blank a.
Proof. unfold blank. by destruct (Ascii.eqb_spec a " "). Qed.
Lemma name_end_is a : name_end a = true -> is_name_end a.
Proof.
  unfold name_end, is_name_end. destruct (Ascii.eqb_spec a " "); [by left|]. destruct (Ascii.eqb_spec a "009"); [by right; left|].
  destruct (Ascii.eqb_spec a "010"); [by right; right|]. done.
Qed.
Lemma space_is a : space a = true -> is_space a.
Proof.
  unfold space, is_space. intros H. apply orb_prop in H as [H|H].
  - left. apply Nat.eqb_eq in H. by rewrite <- (ascii_nat_embedding a), H.
  - right. apply andb_prop in H as [H1 H2]. apply Nat.leb_le in H1, H2. lia.
Qed.
Lemma pass_text l s t : text_of l s t -> pass l s = t.
Proof.
  intros [Hn H]. destruct l; cbn [pass].
  - subst s. by apply cstr_id.
  - destruct H as [He [n ->]]. rewrite rstrip_tail, (rstrip_id blank is_blank) by (done || apply blank_is). by apply cstr_id.
Qed.
Lemma c_name_tidy t : tidy C t -> c_name t = t.
Proof.
  intros [H1 H2]. unfold c_name. rewrite (rstrip_id space is_space) by (done || apply space_is).
  apply (lstrip_id space is_space); [apply space_is|done].
Qed.
Lemma name_tidy l s t : text_of l s t -> tidy l t -> name_of l s = t.
Proof.
  intros Ht H. destruct l; cbn [name_of]; rewrite (pass_text _ _ _ Ht).
  - by apply c_name_tidy.
  - unfold f_name. apply (rstrip_id name_end is_name_end); [apply name_end_is|done].
Qed.
Lemma copy_all {A} (n : nat) (a : list A) : length a = n -> 0 < length a -> copy_in n (Some a) = Ret a.
Proof.
  intros <- H. unfold copy_in. destruct (decide (length a = 0)); [lia|]. destruct (decide (length a <= length a)); [|lia].
  by rewrite take_ge.
Qed.

Section Proofs.
Context {D : Type} (one : D).
(** What is called of a call that is meant *)
Definition called (k : counts) (c : call D) : list (call D) :=
  match c with
  | YInitialPhreeqc2Module a =>
      [YInitialPhreeqc2Module_mix a (replicate (n_xyz k * 7) (-1)%Z) (replicate (n_xyz k * 7) one)]
  | YSetGridCellCount _ | YThreadCount _ => []
  | _ => [c]
  end.
Lemma recorded_meant l k (c c' : call D) : meant l c c' -> sized k c' -> recorded_as l c = Ret c'.
Proof.
  intros H Hs. destruct c; destruct c'; try discriminate H; cbn [recorded_as]; cbn [meant] in H; try reflexivity;
    try match type of H with _ /\ _ /\ _ /\ text_of _ _ _ => destruct H as (-> & -> & -> & H) end;
    try match type of H with text_of _ _ _ => rewrite (pass_text _ _ _ H); reflexivity end;
    try match type of H with text_of _ _ _ /\ _ => destruct H as [H1 H2]; by rewrite (pass_text _ _ _ H1), (pass_text _ _ _ H2) end;
    try (by rewrite H).
  injection H as -> -> ->. cbn in Hs. destruct Hs as (H1 & H2 & H3 & _).
  destruct l.
  - rewrite decide_True by lia. by rewrite !take_ge by lia.
  - by rewrite decide_True by lia.
Qed.
Lemma direct_meant l k (c c' : call D) : meant l c c' -> sized k c' -> alike l c' -> direct one l k c = Ret (called k c').
Proof.
  intros H Hs Ha. destruct c; destruct c'; try discriminate H; cbn [direct called]; cbn [meant] in H; cbn [sized] in Hs;
    cbn [alike] in Ha; try reflexivity; try contradiction; try (by rewrite H);
    try match type of H with _ = _ => injection H; intros; subst end;
    try match type of Hs with
      | length _ = _ /\ 0 < _ => destruct Hs as [Hs1 Hs2]; unfold taking; rewrite copy_all by done; reflexivity
      end;
    try match type of H with _ /\ _ /\ _ /\ text_of _ _ _ => destruct H as (-> & -> & -> & H) end;
    try match type of Ha with tidy _ _ => rewrite (name_tidy _ _ _ H) by done; reflexivity end.
  - destruct H as [H1 H2]. by rewrite (pass_text _ _ _ H1), (pass_text _ _ _ H2).
  - destruct Hs as (H1 & H2 & H3 & H4). by rewrite !copy_all by lia.
  - unfold taking. by rewrite copy_all.
  - subst l. by rewrite (pass_text _ _ _ H).
  - destruct l.
    + destruct Ha as [Ha|Ha]; [done|]. rewrite (pass_text _ _ _ H). by rewrite c_name_tidy.
    + by rewrite (pass_text _ _ _ H).
  - subst l. by rewrite (pass_text _ _ _ H).
  - destruct Ha as [-> Ha]. rewrite (pass_text _ _ _ H). by rewrite (rstrip_id space is_space) by (done || apply space_is).
Qed.
Lemma tape_meant l (cs cs' : list (call D)) : Forall2 (meant l) cs cs' ->
  Forall (fun c => exists k, sized k c) cs' -> tape l cs = Ret cs'.
Proof.
  induction 1 as [|c c' cs cs' H1 H2 IH]; intros Hs; [done|]. apply Forall_cons in Hs as [[k Hk] Hs].
  cbn [tape]. by rewrite (recorded_meant l k c c'), IH.
Qed.
Lemma called_runs {St} (run : call D -> St -> outcome St) cnt (c : call D) s : one_array one run cnt ->
  runs run (called (cnt s) c) s = if setup c then Ret s else run c s.
Proof.
  intros Ho. destruct c; cbn [called setup runs]; try reflexivity;
    try (match goal with |- obind ?x _ = _ => destruct x; reflexivity end).
  rewrite <- Ho. by destruct (run _ s).
Qed.
End Proofs.
