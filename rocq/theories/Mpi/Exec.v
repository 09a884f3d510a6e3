(** Running processes: an executable form of the steps, used for concrete sessions. *)
From Coq Require Import ZArith.
From stdpp Require Import prelude relations.
From Verif.Mpi Require Import Comm CommProofs.

Section exec.
  Context {D R W : Type} (loop : W -> msg D * (msg D -> prog D (W * bool))).
  Notation config := (config D R W).
  Notation step := (step loop (R := R)).
  Implicit Types c e : config.

  Definition send_one c (i : nat) : option config :=
    match c_workers c !! i, c_queues c !! i with
    | Some (Send m k), Some q => Some (Config (c_root c) (<[i := k]> (c_workers c)) (<[i := q ++ [m]]> (c_queues c)))
    | _, _ => None
    end.
  Definition recv_one c : option config :=
    match c_root c with
    | Recv i t n k => match received i t n (c_queues c) with Some (m, qs) => Some (Config (k m) (c_workers c) qs) | None => None end
    | _ => None
    end.
  Definition next c : option config :=
    match collective loop c with
    | Some c' => Some c'
    | None =>
        match head (omap (send_one c) (seq 0 (length (c_workers c)))) with
        | Some c' => Some c'
        | None => recv_one c
        end
    end.
  Fixpoint exec (fuel : nat) c : option (nat * config) :=
    match fuel with
    | O => None
    | S f => match next c with
             | None => Some (O, c)
             | Some c' => match exec f c' with Some (n, e) => Some (S n, e) | None => None end
             end
    end.

  Lemma next_step c c' : next c = Some c' -> step c c'.
  Proof.
    unfold next. destruct (collective loop c) as [c1|] eqn:E1; [intros [= ->]; by constructor|].
    destruct (head _) as [c1|] eqn:E2.
    - intros [= ->]. apply head_Some_elem_of in E2. apply elem_of_list_omap in E2 as (i & _ & Hi). unfold send_one in Hi.
      destruct (c_workers c !! i) as [p|] eqn:Ew; [|done]. destruct p; try done.
      destruct (c_queues c !! i) as [q|] eqn:Eq; [|done]. injection Hi as <-. by constructor.
    - unfold recv_one. destruct (c_root c) eqn:Er; try done.
      destruct (received _ _ _ _) as [[m qs]|] eqn:Em; [|done]. intros [= <-]. by eapply step_recv.
  Qed.
  Lemma next_none c : next c = None -> ended loop c.
  Proof.
    unfold next. destruct (collective loop c) as [c1|] eqn:E1; [done|].
    destruct (head _) as [c1|] eqn:E2; [done|]. intros E3 c' H. inversion H as [? ? A|? i m k q A B|? i t n k m qs A B]; subst.
    - congruence.
    - apply head_None in E2 || idtac.
      assert (omap (send_one c) (seq 0 (length (c_workers c))) = []) as E by (by destruct (omap _ _)).
      assert (Config (c_root c) (<[i := k]> (c_workers c)) (<[i := q ++ [m]]> (c_queues c)) ∈ omap (send_one c) (seq 0 (length (c_workers c)))) as Hin.
      { apply elem_of_list_omap. exists i. split; [|unfold send_one; by rewrite A, B].
        apply elem_of_seq. apply lookup_lt_Some in A. lia. }
      rewrite E in Hin. by apply elem_of_nil in Hin.
    - unfold recv_one in E3. rewrite A, B in E3. done.
  Qed.
  Lemma exec_steps f c n e : exec f c = Some (n, e) -> nsteps step n c e /\ ended loop e.
  Proof.
    revert c n. induction f as [|f IH]; intros c n; cbn; [done|].
    destruct (next c) as [c'|] eqn:En.
    - destruct (exec f c') as [[n' e']|] eqn:Ee; [|done]. intros [= <- <-]. destruct (IH _ _ Ee). split; [|done].
      eapply nsteps_l; [by apply next_step|done].
    - intros [= <- <-]. split; [constructor|by apply next_none].
  Qed.
  (** Every run ends where this one does *)
  Lemma exec_all {A} (obs : config -> A) f c a : (obs ∘ snd) <$> exec f c = Some a ->
    exists n e, obs e = a /\ ended loop e /\ forall i x, nsteps step i c x -> i <= n /\ nsteps step (n - i) x e.
  Proof.
    destruct (exec f c) as [[n e]|] eqn:E; cbn; [|done]. intros [= <-]. destruct (exec_steps _ _ _ _ E) as [H1 H2].
    exists n, e. split; [done|]. split; [done|]. intros i x Hi. by eapply run_joins.
  Qed.
End exec.
