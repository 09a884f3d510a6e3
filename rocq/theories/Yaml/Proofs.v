(** Lemmas about YAML documents. *)
From Coq Require Import String Decimal DecimalString DecimalZ DecimalFacts DecimalNat DecimalPos ZArith.
From stdpp Require Import prelude strings.
From Verif.Base Require Import Result.
From Verif.Yaml Require Import Model Spec.
Local Open Scope string_scope.
Local Open Scope list_scope.

Lemma bool_text b : bool_of_text (text_of_bool b) = Some b.
Proof. by destruct b. Qed.
Lemma int_text z : (-2147483648 <= z <= 2147483647)%Z -> int_of_text (text_of_int z) = Some z.
Proof.
  intros Hz. unfold int_of_text, text_of_int. rewrite NilZero.isi.
  - rewrite DecimalZ.of_to. unfold int_in_range.
    rewrite (proj2 (Z.leb_le _ _)) by lia. by rewrite (proj2 (Z.leb_le _ _)) by lia.
  - destruct z; simpl; try done. intros [= H]. by apply (DecimalPos.Unsigned.to_uint_nonnil p).
  - destruct z; simpl; try done. intros [= H]. by apply (DecimalPos.Unsigned.to_uint_nonnil p).
Qed.
Lemma all_of_map {T} (f : string -> option T) (g : T -> string) l :
  Forall (fun x => f (g x) = Some x) l -> all_of f (map g l) = Some l.
Proof. induction 1 as [|x l H _ IH]; [done|]. simpl. by rewrite H, IH. Qed.

Section P.
Context {D : Type} (N : numbers D).
Lemma as_e_str s : as_str (e_str s) = Ret s. Proof. done. Qed.
Lemma as_e_bool b : as_bool (e_bool b) = Ret b.
Proof. unfold as_bool, e_bool, scalar. by rewrite bool_text. Qed.
Lemma as_e_int z : (-2147483648 <= z <= 2147483647)%Z -> as_int (e_int z) = Ret z.
Proof. intros H. unfold as_int, e_int, scalar. by rewrite int_text. Qed.
Lemma as_e_ints l : Forall (fun z => -2147483648 <= z <= 2147483647)%Z l -> as_ints (e_ints l) = Ret l.
Proof.
  intros H. unfold as_ints, e_ints, sequence. rewrite all_of_map; [done|].
  eapply Forall_impl; [exact H|]. intros z Hz. by apply int_text.
Qed.
Lemma as_e_num d : faithful N -> as_num N (e_num N d) = Ret d.
Proof. intros H. unfold as_num, e_num, scalar. by rewrite H. Qed.
Lemma as_e_nums l : faithful N -> as_nums N (e_nums N l) = Ret l.
Proof.
  intros H. unfold as_nums, e_nums, sequence. rewrite all_of_map; [done|]. apply Forall_true. apply H.
Qed.

Lemma read_node_cons name k rest : read_node N ((name, Scalar k) :: rest) = branch k (branches N) ((name, Scalar k) :: rest).
Proof. done. Qed.
(** The reader reads what the recorder wrote. *)
Lemma read_emit c : faithful N -> known c -> ints_ok c ->
  read_node N (emit N c) = Ret (if setup c then None else Some c).
Proof.
  intros HN Hk Hi. destruct c; try done; unfold ints_ok in Hi;
    cbn -[as_str as_bool as_int as_num as_ints as_nums e_str e_bool e_int e_num e_ints e_nums] in Hi |- *;
    rewrite read_node_cons;
    cbn -[as_str as_bool as_int as_num as_ints as_nums e_str e_bool e_int e_num e_ints e_nums];
    unfold get, arg;
    cbn -[as_str as_bool as_int as_num as_ints as_nums e_str e_bool e_int e_num e_ints e_nums];
    repeat match goal with
    | H : Forall _ (_ :: _) |- _ => apply Forall_cons in H as [? ?]
    end;
    repeat (first [rewrite as_e_str | rewrite as_e_bool | rewrite as_e_int by assumption
                 | rewrite as_e_ints by (assumption || (apply Forall_app in Hi as [? ?]; assumption) || (constructor; assumption))
                 | rewrite as_e_num by assumption | rewrite as_e_nums by assumption];
            cbn -[as_str as_bool as_int as_num as_ints as_nums e_str e_bool e_int e_num e_ints e_nums]);
    try reflexivity.
Qed.
Lemma read_unknown c : ~ known c -> read_node N (emit N c) = Throw.
Proof. intros H. destruct c; try (exfalso; by apply H); reflexivity. Qed.

Lemma record_map cs : record N cs = map (emit N) cs.
Proof.
  unfold record. assert (G : forall d, foldl (fun d c => d ++ [emit N c]) d cs = d ++ map (emit N) cs).
  { induction cs as [|c cs IH]; intros d; simpl; [by rewrite app_nil_r|]. rewrite IH. by rewrite <- app_assoc. }
  apply G.
Qed.

Lemma initialize_app {St} (run : call D -> St -> outcome St) d1 d2 s :
  initialize N run (d1 ++ d2) s = obind (initialize N run d1 s) (initialize N run d2).
Proof.
  revert s. induction d1 as [|n d1 IH]; intros s; [done|]. cbn [app initialize].
  destruct (read_node N n) as [o| |]; [|done|done]. cbn [obind].
  destruct (match o with Some c => run c s | None => Ret s end) as [s'| |]; [|done|done]. cbn [obind]. apply IH.
Qed.
End P.
