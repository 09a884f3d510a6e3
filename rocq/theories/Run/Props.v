(** C46: RunFile and RunString; C61: loading a database. *)
From Coq Require Import ZArith String Lia.
From stdpp Require Import prelude strings.
From Verif.Base Require Import Result.
From Verif.Settings Require Import Model.
From Verif.Run Require Import Model Spec Proofs.
Open Scope list_scope.

Section run.
  Context {S : Type} (engine : bool -> S -> S * answer) (out_text err_text : S -> string).
  Context (nthreads : nat) (print : flags).

  (** Exactly the chosen instances have run, each once from its own state, whatever the order in
      which the threads took them; the call succeeds exactly when every chosen instance did. *)
  Theorem run_routing tell f order vs :
    order ≡ₚ seq 0 (nthreads + 2) -> length vs = (nthreads + 2)%nat ->
    let r := run_input engine out_text err_text nthreads print tell 0 f order vs in
    length r.1.1 = length vs
    /\ (forall n s, vs !! n = Some s ->
          (chosen nthreads f n -> r.1.1 !! n = Some (engine (flag_of nthreads print n) s).1)
          /\ (~ chosen nthreads f n -> r.1.1 !! n = Some s))
    /\ (r.2 = Returned IRM_OK \/ r.2 = Returned IRM_FAIL)
    /\ (r.2 = Returned IRM_OK <->
        forall n s, vs !! n = Some s -> chosen nthreads f n -> worked (engine (flag_of nthreads print n) s).2).
  Proof.
    intros Hp Hl r. destruct (run_threads_spec engine out_text err_text nthreads print tell f order vs Hp Hl) as (H1 & H2 & H3 & _).
    unfold r, run_input. simpl. set (t := run_threads _ _ _ _ _ _ _ _ _) in *. split; [congruence|]. split.
    { intros n s Hs. pose proof (lookup_lt_Some _ _ _ Hs) as Hn. destruct (H3 n s Hs) as [-> _].
      rewrite <- (flag_chosen nthreads f n) by lia. split.
      - intros ->. by rewrite thread_state.
      - intros Hf. destruct (flag_of nthreads f n); [|done]. by destruct Hf. }
    assert (forall c, return_handler 0 c = Returned c) as Hr by (intros []; done). rewrite Hr. split.
    { destruct (run_code_codes t.1.2) as [-> | ->]; [by left|by right]. }
    split.
    - intros [= Hc] n s Hs Hch. pose proof (lookup_lt_Some _ _ _ Hs) as Hn. rewrite run_code_ok in Hc.
      destruct (H3 n s Hs) as [_ H]. apply flag_chosen in Hch; [|lia]. rewrite Hch in H.
      apply (thread_code engine out_text err_text nthreads print tell). by apply (Hc n).
    - intros Hw. f_equal. apply run_code_ok. intros n c Hc. pose proof (lookup_lt_Some _ _ _ Hc) as Hn.
      destruct (lookup_lt_is_Some_2 vs n) as [s Hs]; [lia|]. destruct (H3 n s Hs) as [_ H]. rewrite H in Hc.
      injection Hc as <-. destruct (flag_of nthreads f n) eqn:Ef; [|done].
      apply (thread_code engine out_text err_text nthreads print tell). apply (Hw n s Hs). apply flag_chosen; [lia|done].
  Qed.

  (** The order changes neither the states nor the result nor which messages are written. *)
  Theorem run_any_order tell mode f order order' vs :
    order ≡ₚ seq 0 (nthreads + 2) -> order' ≡ₚ seq 0 (nthreads + 2) -> length vs = (nthreads + 2)%nat ->
    let r := run_input engine out_text err_text nthreads print tell mode f order vs in
    let r' := run_input engine out_text err_text nthreads print tell mode f order' vs in
    r.1.1 = r'.1.1 /\ r.1.2 ≡ₚ r'.1.2 /\ r.2 = r'.2.
  Proof.
    intros Hp Hp' Hl r r'.
    destruct (run_threads_spec engine out_text err_text nthreads print tell f order vs Hp Hl) as (A1 & A2 & A3 & A4).
    destruct (run_threads_spec engine out_text err_text nthreads print tell f order' vs Hp' Hl) as (B1 & B2 & B3 & B4).
    unfold r, r', run_input. simpl. set (t := run_threads _ _ _ _ _ _ _ order _) in *. set (t' := run_threads _ _ _ _ _ _ _ order' _) in *.
    assert (t.1.1 = t'.1.1) as E1.
    { apply list_eq_same_length with (n := (nthreads + 2)%nat); [done|done|]. intros i x y Hi Hx Hy.
      destruct (lookup_lt_is_Some_2 vs i) as [s Hs]; [lia|]. rewrite (proj1 (A3 i s Hs)) in Hx. rewrite (proj1 (B3 i s Hs)) in Hy. congruence. }
    assert (t.1.2 = t'.1.2) as E2.
    { apply list_eq_same_length with (n := (nthreads + 2)%nat); [done|done|]. intros i x y Hi Hx Hy.
      destruct (lookup_lt_is_Some_2 vs i) as [s Hs]; [lia|]. rewrite (proj2 (A3 i s Hs)) in Hx. rewrite (proj2 (B3 i s Hs)) in Hy. congruence. }
    rewrite E1, E2. split; [done|]. split; [|done]. rewrite A4, B4. apply Permutation_app_tail.
    rewrite <- !flat_map_concat_map. apply Permutation_flat_map. by rewrite Hp, Hp'.
  Qed.

  (** What is written: for each chosen instance in the order of running its output text if it
      succeeded and printing is on for its kind; at the end the error text of every failed instance,
      in the order of the instances. *)
  Theorem run_messages f order vs :
    order ≡ₚ seq 0 (nthreads + 2) -> length vs = (nthreads + 2)%nat ->
    (forall p s, (engine p s).2 <> Exception) ->
    let r := run_input engine out_text err_text nthreads print false 0 f order vs in
    (forall t, Error t ∈ r.1.2 <->
       exists n s, vs !! n = Some s /\ chosen nthreads f n /\
         ~ worked (engine (flag_of nthreads print n) s).2 /\ t = err_text (engine (flag_of nthreads print n) s).1)
    /\ (forall t, Output t ∈ r.1.2 <->
       exists n s, vs !! n = Some s /\ chosen nthreads f n /\ flag_of nthreads print n = true /\
         worked (engine (flag_of nthreads print n) s).2 /\ t = out_text (engine (flag_of nthreads print n) s).1).
  Proof.
    intros Hp Hl Hex r.
    destruct (run_threads_spec engine out_text err_text nthreads print false f order vs Hp Hl) as (A1 & A2 & A3 & A4).
    unfold r, run_input. simpl. set (t := run_threads _ _ _ _ _ _ _ order _) in *.
    assert (forall m, m ∈ t.2 <-> exists n s, vs !! n = Some s /\ chosen nthreads f n /\
      m ∈ (thread engine out_text err_text nthreads print false n s).2) as Ht.
    { intros m. rewrite A4. rewrite elem_of_list_In, in_concat. split.
      - intros (l & Hin & Hm). apply in_map_iff in Hin as (n & <- & Hn).
        apply elem_of_list_In in Hn. rewrite Hp in Hn. apply elem_of_seq in Hn.
        destruct (flag_of nthreads f n) eqn:Ef; [|done]. destruct (vs !! n) as [s|] eqn:Es; [|done].
        exists n, s. split; [done|]. split; [apply flag_chosen; [lia|done]|]. by apply elem_of_list_In.
      - intros (n & s & Hs & Hc & Hm). pose proof (lookup_lt_Some _ _ _ Hs) as Hn.
        exists ((thread engine out_text err_text nthreads print false n s).2). split; [|by apply elem_of_list_In].
        apply in_map_iff. exists n. apply flag_chosen in Hc; [|lia]. rewrite Hc, Hs. split; [done|].
        apply elem_of_list_In. rewrite Hp. apply elem_of_seq. lia. }
    assert (forall m, m ∈ error_texts err_text t.1.1 t.1.2 <-> exists n s, vs !! n = Some s /\ chosen nthreads f n /\
      ~ worked (engine (flag_of nthreads print n) s).2 /\ m = Error (err_text (engine (flag_of nthreads print n) s).1)) as He.
    { intros m. unfold error_texts. rewrite elem_of_list_In, in_concat. split.
      - intros (l & Hin & Hm). apply elem_of_list_In, elem_of_list_lookup in Hin as [n Hn].
        apply lookup_zip_with_Some in Hn as (s' & c & -> & Hs' & Hc). pose proof (lookup_lt_Some _ _ _ Hs') as Hlt.
        destruct (lookup_lt_is_Some_2 vs n) as [s Hs]; [lia|]. destruct (A3 n s Hs) as [B1 B2].
        rewrite B1 in Hs'. rewrite B2 in Hc. injection Hs' as <-. injection Hc as <-.
        destruct (flag_of nthreads f n) eqn:Ef; [|by rewrite decide_True in Hm].
        case_decide as Hd; [done|]. destruct Hm as [<-|[]]. exists n, s. split; [done|]. split; [apply flag_chosen; [lia|done]|].
        rewrite <- (thread_code engine out_text err_text nthreads print false n s). rewrite thread_state. done.
      - intros (n & s & Hs & Hc & Hw & ->). pose proof (lookup_lt_Some _ _ _ Hs) as Hlt.
        destruct (A3 n s Hs) as [B1 B2]. apply flag_chosen in Hc; [|lia]. rewrite Hc in B1, B2. rewrite thread_state in B1.
        rewrite <- (thread_code engine out_text err_text nthreads print false n s) in Hw.
        exists [Error (err_text (engine (flag_of nthreads print n) s).1)]. split; [|by left].
        apply elem_of_list_In, elem_of_list_lookup. exists n. apply lookup_zip_with_Some.
        exists (engine (flag_of nthreads print n) s).1, (thread engine out_text err_text nthreads print false n s).1.2.
        split; [by rewrite decide_False|done]. }
    assert (forall n s m, m ∈ (thread engine out_text err_text nthreads print false n s).2 <->
      flag_of nthreads print n = true /\ worked (engine (flag_of nthreads print n) s).2 /\ m = Output (out_text (engine (flag_of nthreads print n) s).1)) as Hth.
    { intros n s m. unfold thread. specialize (Hex (flag_of nthreads print n) s).
      destruct (engine (flag_of nthreads print n) s) as [s' [k|]]; [|by destruct Hex]. simpl. unfold worked.
      destruct (Z.ltb_spec 0 k); simpl.
      - rewrite elem_of_nil. split; [done|]. intros (_ & (k' & [= <-] & Hk) & _). lia.
      - destruct (flag_of nthreads print n).
        + rewrite elem_of_list_singleton. split; [|tauto]. intros ->. eauto.
        + rewrite elem_of_nil. split; [done|]. intros (? & _). done. }
    split; intros x; rewrite elem_of_app, Ht, He.
    - split.
      + intros [(n & s & _ & _ & Hm)|(n & s & Hs & Hc & Hw & Hm)].
        * apply Hth in Hm as (_ & _ & ?). done.
        * injection Hm as ->. exists n, s. done.
      + intros (n & s & Hs & Hc & Hw & ->). right. exists n, s. done.
    - split.
      + intros [(n & s & Hs & Hc & Hm)|(n & s & Hs & Hc & Hw & Hm)].
        * apply Hth in Hm as (H1 & H2 & [= ->]). exists n, s. done.
        * done.
      + intros (n & s & Hs & Hc & H1 & H2 & ->). left. exists n, s. split; [done|]. split; [done|]. apply Hth. done.
  Qed.

  (** RunFile with an empty name: in the modes that report by an exception or an exit nothing is run;
      in the others the engines get the empty name. *)
  Theorem run_file_empty mode f order vs :
    (mode = 1 \/ mode = 2)%Z ->
    exists e, run_file engine out_text err_text nthreads print mode "" f order vs = (vs, [], e)
      /\ (e = Thrown \/ e = Exited IRM_INVALIDARG).
  Proof. intros [-> | ->]; eexists; (split; [reflexivity|]); [by left|by right]. Qed.

  (** In the MPI build the call succeeds exactly when the workers did ... *)
  Theorem mpi_run_result tell f orders procs :
    length orders = length procs ->
    (forall p o, orders !! p = Some o -> o ≡ₚ seq 0 (nthreads + 2)) ->
    (forall p vs, procs !! p = Some vs -> length vs = (nthreads + 2)%nat) -> (0 < nthreads)%nat ->
    (mpi_run engine out_text err_text nthreads print tell 0 f orders procs).2 = Returned IRM_OK <->
    (f_workers f = true -> forall p vs s, procs !! p = Some vs -> vs !! 0 = Some s -> worked (engine (f_workers print) s).2).
  Proof.
    intros Hlen Ho Hv Hn. unfold mpi_run. simpl.
    assert (forall c, return_handler 0 c = Returned c) as Hr by (intros []; done). rewrite Hr.
    assert (forall f', flag_of nthreads f' 0 = f_workers f') as Hf.
    { intros f'. unfold flag_of. destruct (Nat.ltb_spec 0 nthreads); [done|lia]. }
    assert (forall p vs s, procs !! p = Some vs -> vs !! 0 = Some s -> exists o, orders !! p = Some o /\
      default IRM_OK ((run_threads engine out_text err_text nthreads print tell f o vs).1.2 !! 0)
      = if f_workers f then (thread engine out_text err_text nthreads print tell 0 s).1.2 else IRM_OK) as Hd.
    { intros p vs s Hp Hs. pose proof (lookup_lt_Some _ _ _ Hp) as Hlt.
      destruct (lookup_lt_is_Some_2 orders p) as [o Hop]; [lia|]. exists o. split; [done|].
      destruct (run_threads_spec engine out_text err_text nthreads print tell f o vs (Ho p o Hop) (Hv p vs Hp)) as (_ & _ & H3 & _).
      destruct (H3 0 s Hs) as [_ ->]. simpl. by rewrite Hf. }
    split.
    - intros [= Hc] Hw p vs s Hp Hs. destruct (Hd p vs s Hp Hs) as (o & Hop & E). rewrite Hw in E.
      rewrite <- (Hf print). apply (thread_code engine out_text err_text nthreads print tell 0 s). rewrite <- E.
      rewrite run_code_ok in Hc. apply (Hc p). change (map ?f ?l) with (f <$> l). rewrite list_lookup_fmap.
      rewrite lookup_zip_with, Hop. simpl. by rewrite Hp.
    - intros H. f_equal. apply run_code_ok. intros p c Hc. change (map ?f ?l) with (f <$> l) in Hc.
      apply list_lookup_fmap_Some in Hc as (x & Hx & ->). apply lookup_zip_with_Some in Hx as (o & vs & -> & Hop & Hp).
      destruct (lookup_lt_is_Some_2 vs 0) as [s Hs]; [rewrite (Hv p vs Hp); lia|].
      destruct (Hd p vs s Hp Hs) as (o' & Hop' & E). rewrite Hop in Hop'. injection Hop' as <-. rewrite E.
      destruct (f_workers f) eqn:Ew; [|done]. apply (thread_code engine out_text err_text nthreads print tell 0 s).
      rewrite Hf. by apply (H eq_refl p vs s).
  Qed.

  (** ... so that failures of InitialPhreeqc and Utility are never reported there. *)
  Theorem mpi_initial_refuted tell i u orders procs :
    (forall p s, ~ worked (engine p s).2) ->
    length orders = length procs ->
    (forall p o, orders !! p = Some o -> o ≡ₚ seq 0 (nthreads + 2)) ->
    (forall p vs, procs !! p = Some vs -> length vs = (nthreads + 2)%nat) -> (0 < nthreads)%nat ->
    (mpi_run engine out_text err_text nthreads print tell 0 (Flags false i u) orders procs).2 = Returned IRM_OK.
  Proof. intros _ H1 H2 H3 H4. apply mpi_run_result; done. Qed.
End run.
Print Assumptions run_routing.
Print Assumptions run_any_order.
Print Assumptions run_messages.
Print Assumptions run_file_empty.
Print Assumptions mpi_run_result.
Print Assumptions mpi_initial_refuted.

(** C61: the database goes into every instance; success is exactly success of all, with a name. *)
Theorem load_result {S} (load : S -> S * Z) name (vs : list S) :
  let r := load_database load 0 name vs in
  (name <> ""%string -> r.1 = map (fun s => (load s).1) vs)
  /\ (name = ""%string -> r.1 = vs)
  /\ (r.2 = Returned IRM_OK \/ r.2 = Returned IRM_FAIL)
  /\ (r.2 = Returned IRM_OK <-> name <> ""%string /\ forall s, s ∈ vs -> (load s).2 = 0%Z).
Proof.
  unfold load_database. case_decide as H; simpl.
  - split; [done|]. split; [done|]. split; [by right|]. split; [done|]. by intros [? _].
  - split; [by rewrite map_map|]. split; [done|].
    assert (Forall (fun r : S * Z => r.2 = 0%Z) (map load vs) <-> forall s, s ∈ vs -> (load s).2 = 0%Z) as E.
    { rewrite Forall_forall. split.
      - intros Hf s Hs. apply Hf. apply elem_of_list_In, in_map, elem_of_list_In, Hs.
      - intros Hf x Hx. apply elem_of_list_In, in_map_iff in Hx as (s & <- & Hs). apply Hf. by apply elem_of_list_In. }
    case_decide as Hd; (split; [auto|]).
    + split; [|done]. intros _. split; [done|]. by apply E.
    + split; [done|]. intros [_ Hf]. exfalso. apply Hd. by apply E.
Qed.
Print Assumptions load_result.

(** Three workers; the engine counts, fails on 5 and throws on 7. *)
Definition eng (p : bool) (s : nat) : nat * answer :=
  (s + 10, if decide (s = 5) then Errors 2 else if decide (s = 7) then Exception else Errors 0)%nat.
Definition show (s : nat) : string := if decide (s = 15)%nat then "bad" else "good".
Example run_case :
  run_input eng show show 3 (Flags false true true) true 0 (Flags true true false) [4; 2; 0; 3; 1] [1; 5; 3; 4; 7]
  = ([11; 15; 13; 14; 7], [Output "good"; Error "bad"; Error "bad"], Returned IRM_FAIL)
  /\ run_input eng show show 3 (Flags false true true) true 0 (Flags false true false) [4; 2; 0; 3; 1] [1; 5; 3; 4; 7]
  = ([1; 5; 3; 14; 7], [Output "good"], Returned IRM_OK)
  /\ (mpi_run eng show show 1 (Flags false false false) true 0 (Flags false true true) [[0; 1; 2]; [2; 1; 0]] [[1; 5; 7]; [2; 5; 7]])
  = ([[1; 15; 17]; [2; 15; 17]], Returned IRM_OK).
Proof. vm_compute. split_and!; reflexivity. Qed.
Example order_case : [4; 2; 0; 3; 1] ≡ₚ seq 0 (3 + 2).
Proof. apply (bool_decide_unpack _). vm_compute. exact I. Qed.
Example load_case : load_database (fun s : nat => (0%nat, Z.of_nat s)) 0 "phreeqc.dat" [0; 0; 3]%nat = ([0; 0; 0]%nat, Returned IRM_FAIL).
Proof. vm_compute. reflexivity. Qed.
