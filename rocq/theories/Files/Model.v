(** Writing the dump file, and replacing a file by a newer one.

    Source: src/PhreeqcRM.cpp 2443-2618 (DumpModule, the NEWDUMP thread variant), 2795-2821
    (FileExists, FileRename), 11598-11623 (SetDumpFileName), StorageBin.cxx 918-952,
    phreeqcpp/Phreeqc.h 1912-1926
    (Rxn_dump_raw_range). *)
From Coq Require Import ZArith String.
From stdpp Require Import prelude strings gmap.
From Verif.Base Require Import Result.
Open Scope list_scope.

(** ** What is dumped *)

(** The kinds of reactant held by a storage bin (StorageBin.h), and the ten that
    StorageBin::dump_raw_range writes, in its order (StorageBin.cxx 918-952): reaction pressures are
    not among them. *)
Inductive kind := Solution | Exchange | GasPhase | Kinetics | PPassemblage | SSassemblage | Surface
  | Mix | Reaction | Temperature | Pressure.
Global Instance kind_dec : EqDecision kind. Proof. solve_decision. Defined.
Definition dump_order : list kind :=
  [Solution; Exchange; GasPhase; Kinetics; PPassemblage; SSassemblage; Surface; Mix; Reaction; Temperature].

(** [for (i = start; i <= end; i++)] of Rxn_dump_raw_range; a negative number is passed over. *)
Definition zrange (start last : Z) : list Z := 
  filter (fun i => 0 <= i)%Z (map (fun k => start + Z.of_nat k)%Z (seq 0 (Z.to_nat (last - start + 1)))).

(** The places looked at by dump_raw_range of worker [n]'s storage bin, in order. *)
Definition range_items (n : nat) (start last : Z) : list (nat * kind * Z) :=
  concat (map (fun k => map (fun i => (n, k, i)) (zrange start last)) dump_order).

(** Lines 2535-2548: the cells of worker [n] in block [ib]. *)
Definition block_items (block : Z) (n : nat) (start last : Z) (ib : nat) : list (nat * kind * Z) :=
  let begin := (start + Z.of_nat ib * block)%Z in
  if (begin <=? last)%Z then
    let stop := (start + (Z.of_nat ib + 1) * block - 1)%Z in
    range_items n begin (if (last <? stop)%Z then last else stop)
  else [].

(** Lines 2487-2497: the number of blocks, from the largest number of cells of a worker. C++
    division truncates; the operands are non-negative. *)
Definition max_count (ranges : list (Z * Z)) : Z :=
  fold_left (fun m r => let count := (r.2 - r.1 + 1)%Z in if (m <? count)%Z then count else m) ranges 0%Z.
Definition block_count (block : Z) (ranges : list (Z * Z)) : Z :=
  let m := max_count ranges in
  (m ÷ block + if (0 <? Z.rem m block)%Z then 1 else 0)%Z.

(** Lines 2512-2566: block by block, and in each block worker by worker. The strings of one block
    are made by the workers' threads, each its own, and are written afterwards in worker order. *)
Definition one_block (block : Z) (ranges : list (Z * Z)) (ib : nat) : list (nat * kind * Z) :=
  concat (imap (fun n r => block_items block n r.1 r.2 ib) ranges).
Definition dump_items (block : Z) (ranges : list (Z * Z)) : list (nat * kind * Z) :=
  concat (map (one_block block ranges) (seq 0 (Z.to_nat (block_count block ranges)))).

(** ** Writing *)

Section text.
  Context {A : Type}.
  (** Lines 2551-2564: the text of one worker is written in pieces of [gzblock] = 4094 characters
      ([strncpy] of at most that many, then [gzprintf "%s"]; the text holds no NUL). *)
  Fixpoint pieces (fuel gzblock : nat) (t : list A) : list (list A) :=
    match fuel with
    | O => []
    | S f => match t with [] => [] | _ => take gzblock t :: pieces f gzblock (drop gzblock t) end
    end.
  (** All pieces written by a dump whose entity texts are given by [entity]; an absent entity
      contributes nothing (Rxn_dump_raw_range). *)
  Definition worker_text (entity : nat * kind * Z -> option (list A)) (items : list (nat * kind * Z)) : list A :=
    concat (map (fun it => default [] (entity it)) items).
  Definition block_pieces (gzblock : nat) (entity : nat * kind * Z -> option (list A)) (block : Z)
      (ranges : list (Z * Z)) (ib : nat) : list (list A) :=
    concat (imap (fun n r =>
      let t := worker_text entity (block_items block n r.1 r.2 ib) in pieces (length t) gzblock t) ranges).
  Definition dump_pieces (gzblock : nat) (entity : nat * kind * Z -> option (list A)) (block : Z)
      (ranges : list (Z * Z)) : list (list A) :=
    concat (map (block_pieces gzblock entity block ranges) (seq 0 (Z.to_nat (block_count block ranges)))).

  (** The contents of the dump file after opening it (line 2468, mode "w" truncates, "a" keeps) and
      after each piece; [fails k] says that writing piece [k] fails, which ends the dump with
      IRM_FAIL (2560-2563). *)
  Definition opened (append : bool) (old : option (list A)) : list A := if append then default [] old else [].
  Fixpoint write_pieces (fails : nat -> bool) (k : nat) (ps : list (list A)) (file : list A)
      : list (list A) * irm_result :=
    match ps with
    | [] => ([], IRM_OK)
    | p :: ps' =>
        if fails k then ([], IRM_FAIL)
        else let r := write_pieces fails (S k) ps' (file ++ p) in ((file ++ p) :: r.1, r.2)
    end.
  (** DumpModule: the successive contents of the file, first to last, and the code given to
      ReturnHandler. With [dump_on] false nothing happens (2449). *)
  Definition dump_module (gzblock : nat) (fails : nat -> bool) (append : bool) (entity : nat * kind * Z -> option (list A))
      (block : Z) (ranges : list (Z * Z)) (old : option (list A)) : list (list A) * irm_result :=
    let f := opened append old in
    let r := write_pieces fails 0 (dump_pieces gzblock entity block ranges) f in
    (f :: r.1, r.2).

  (** ** Files by name *)

  Local Notation files := (gmap string (list A)).
  (** remove and rename of the C library, which change nothing when they fail. *)
  Definition fs_remove (ok : bool) (n : string) (fs : files) : files := if ok then delete n fs else fs.
  Definition fs_rename (ok : bool) (a b : string) (fs : files) : files :=
    if ok then match fs !! a with
               | Some t => if decide (a = b) then fs else <[b := t]> (delete a fs)
               | None => fs
               end
    else fs.
  (** FileRename, lines 2810-2821, as the list of the states after each operation, the initial
      one first; the results of the operations are ignored by the code. Existence is tested by
      opening for reading. *)
  Definition file_rename (ok1 ok2 ok3 : bool) (temp name backup : string) (fs : files) : list files :=
    match fs !! name with
    | Some _ =>
        let fs1 := match fs !! backup with Some _ => fs_remove ok1 backup fs | None => fs end in
        let fs2 := fs_rename ok2 name backup fs1 in
        [fs; fs1; fs2; fs_rename ok3 temp name fs2]
    | None => [fs; fs_rename ok3 temp name fs]
    end.
End text.

(** SetDumpFileName, lines 11598-11623: the new name, and the code given to ReturnHandler; [l]
    stays 0 when the default name is used. *)
Definition set_dump_file_name (prefix cn : string) : string * irm_result :=
  if decide (cn = "")%string then ((prefix ++ ".dmp")%string, IRM_INVALIDARG) else (cn, IRM_OK).
