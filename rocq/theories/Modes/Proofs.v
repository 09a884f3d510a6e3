(** Lemmas for error handler modes *)
From Coq Require Import ZArith String Lia.
From stdpp Require Import prelude strings.
From Verif.Base Require Import Result.
From Verif.Settings Require Import Model.
From Verif.Print Require Import Model.
From Verif.Modes Require Import Model Spec.
Local Open Scope Z_scope.

Lemma set_error_mode_spec {D} (openmp : bool) i (s : settings D) :
  (offered openmp i /\ set_error_mode openmp i s = (set_mode i s, Returned IRM_OK)) \/
  (~ offered openmp i /\ set_error_mode openmp i s = (set_mode 0 s, Returned IRM_INVALIDARG)).
Proof.
  unfold set_error_mode, offered.
  destruct (Z.ltb_spec i 0); [right; split; [|done]; intros [?|[_ ?]]; lia|].
  destruct (Z.ltb_spec i 3); [left; split; [left; lia|done]|].
  destruct openmp; cbn [andb].
  - destruct (Z.eqb_spec i 3); [left; split; [by right|done]|right; split; [|done]; intros [?|[_ ?]]; lia].
  - right. split; [|done]. intros [?|[? _]]; [lia|done].
Qed.

(** One request, in either build: the mode that is left, and the reply *)
Definition obeys {D} (openmp : bool) (set : Z -> settings D -> settings D * reply) : Prop :=
  forall i s, offered openmp (s_mode s) ->
    (offered openmp i /\ s_mode (set i s).1 = i /\ (set i s).2 = Returned IRM_OK) \/
    (~ offered openmp i /\ s_mode (set i s).1 = 0 /\ (set i s).2 = Returned IRM_INVALIDARG).

Lemma obeys_threads {D} openmp : obeys openmp (@set_error_mode D openmp).
Proof. intros i s _. destruct (set_error_mode_spec openmp i s) as [[H ->]|[H ->]]; [left|right]; done. Qed.
Lemma obeys_mpi {D} : obeys false (@set_mode_mpi D).
Proof.
  intros i s Hs. unfold set_mode_mpi. destruct (decide (s_mode s = i)) as [<-|Hne]; [by left|].
  by apply obeys_threads.
Qed.

Lemma ask_spec {D} openmp (set : Z -> settings D -> settings D * reply) : obeys openmp set ->
  forall l s, offered openmp (s_mode s) ->
  offered openmp (s_mode (ask set l s).1) /\
  match last l with
  | None => s_mode (ask set l s).1 = s_mode s
  | Some i => (offered openmp i /\ s_mode (ask set l s).1 = i) \/ (~ offered openmp i /\ s_mode (ask set l s).1 = 0)
  end /\
  Forall2 (fun i r => (offered openmp i /\ r = Returned IRM_OK) \/ (~ offered openmp i /\ r = Returned IRM_INVALIDARG))
    l (ask set l s).2.
Proof.
  intros Ho. induction l as [|i l IH]; intros s Hs; cbn [ask fst snd].
  - done.
  - assert (Hn : offered openmp (s_mode (set i s).1)).
    { destruct (Ho i s Hs) as [(H & -> & _)|(H & -> & _)]; [done|left; lia]. }
    destruct (IH _ Hn) as (A & B & C). split; [done|]. split.
    + destruct l as [|j l'].
      2:{ change (last (i :: j :: l')) with (last (j :: l')).
          destruct (last (j :: l')) eqn:E; [exact B|]. by apply last_None in E. }
      cbn [last ask fst snd].
      destruct (Ho i s Hs) as [(H & E & _)|(H & E & _)]; [left|right]; done.
    + constructor; [|done]. destruct (Ho i s Hs) as [(H & _ & E)|(H & _ & E)]; [left|right]; done.
Qed.

Lemma failed_ending m : return_handler m (code_result (-7)) = ending m.
Proof.
  unfold return_handler, ending, code_result. destruct (decide (-7 = 0)); [lia|]. cbn [irm_code].
  destruct (Z.ltb_spec (irm_code IRM_FAIL) 0) as [_|H]; [|cbn in H; lia].
  destruct (Z.eqb_spec m 0) as [->|]; [by rewrite !decide_False by lia|].
  destruct (Z.eqb_spec m 1) as [->|]; [by rewrite decide_True|].
  rewrite (decide_False (P := m = 1)) by done.
  destruct (Z.eqb_spec m 2) as [->|]; [by rewrite decide_True|by rewrite decide_False].
Qed.
Lemma fine_ending m : return_handler m (code_result 0) = Returned IRM_OK.
Proof. done. Qed.
