(** A call made on the module, and the same call recorded, by programs in C and Fortran.

    Source: src/YAML_interface.F90, YAML_interface_F.cpp and YAML_interface_C.cpp (recording);
    src/RM_interface.F90, RM_interface_F.cpp and RM_interface_C.cpp, for AddOutputVars BMI_interface.F90 and
    BMI_interface_F.cpp (calling). Lines at each definition.

    A call carries the arguments as the caller wrote them: texts with the trailing blanks of a Fortran variable,
    whole arrays. Truth values stand for the ints of the C functions, of which both sides only ask whether they
    are zero. The number of an array's elements that a C caller passes to the recorder is that of the array. An
    instance that exists is assumed on both sides, and pointers that are not NULL. *)
From Coq Require Import String Ascii ZArith.
From stdpp Require Import prelude strings.
From Verif.Base Require Import Result.
From Verif.Wrap Require Import Model.
From Verif.Yaml Require Import Model.
Local Open Scope string_scope.

(** ** Texts *)

(** What C reads of a text: up to the first NUL *)
Fixpoint cstr (s : string) : string :=
  match s with
  | EmptyString => ""
  | String a s' => if Ascii.eqb a "000" then "" else String a (cstr s')
  end.
(** Without the characters at the end that [p] holds of *)
Fixpoint rstrip (p : ascii -> bool) (s : string) : string :=
  match s with
  | EmptyString => ""
  | String a s' => match rstrip p s' with
                   | EmptyString => if p a then "" else String a ""
                   | r => String a r
                   end
  end.
Fixpoint lstrip (p : ascii -> bool) (s : string) : string :=
  match s with
  | EmptyString => ""
  | String a s' => if p a then lstrip p s' else s
  end.
Definition blank (a : ascii) : bool := Ascii.eqb a " ".
(** " \t\n" *)
Definition name_end (a : ascii) : bool := Ascii.eqb a " " || Ascii.eqb a "009" || Ascii.eqb a "010".
(** isspace *)
Definition space (a : ascii) : bool := let n := nat_of_ascii a in Nat.eqb n 32 || (Nat.leb 9 n && Nat.leb n 13).
Definition nl : string := String "010" "".

(** What the C++ side of the interface is given: [trim(s)//C_NULL_CHAR] of Fortran, the pointer of C *)
Definition pass (l : lang) (s : string) : string :=
  match l with C => cstr s | F => cstr (rstrip blank s) end.
(** str.substr(0, str.find_last_not_of(" \t\n") + 1) *)
Definition f_name (s : string) : string := rstrip name_end s.
(** Char2TrimString, PhreeqcRM.cpp 701-721; trim: Parser.h 287-308 *)
Definition c_name (s : string) : string := lstrip space (rstrip space s).
(** Names of files and the input of RM_RunString *)
Definition name_of (l : lang) (s : string) : string := match l with C => c_name (pass C s) | F => f_name (pass F s) end.

Section Direct.
Context {D : Type} (one : D).

(** ** Recording *)

(** What reaches the recorder; YAML_interface_C.cpp and YAML_interface_F.cpp 16-761, YAML_interface.F90 at the lines
    given. [Throw] is the [stop] of Fortran. *)
Definition recorded_as (l : lang) (c : call D) : outcome (call D) :=
  match c with
  | YAddOutputVars option def => Ret (YAddOutputVars (pass l option) (pass l def)) (* 284-304 *)
  | YLoadDatabase s => Ret (YLoadDatabase (pass l s)) (* 956-971 *)
  | YLogMessage s => Ret (YLogMessage (pass l s)) (* 990-1005 *)
  | YOutputMessage s => Ret (YOutputMessage (pass l s)) (* 1058-1073 *)
  | YRunFile w i u s => Ret (YRunFile w i u (pass l s)) (* 1140-1165 *)
  | YRunString w i u s => Ret (YRunString w i u (pass l s)) (* 1194-1218 *)
  | YScreenMessage s => Ret (YScreenMessage (pass l s)) (* 1238-1253 *)
  | YSetDumpFileName s => Ret (YSetDumpFileName (pass l s)) (* 1450-1465 *)
  | YSetFilePrefix s => Ret (YSetFilePrefix (pass l s)) (* 1561-1576 *)
  | YWarningMessage s => Ret (YWarningMessage (pass l s)) (* 3170-3185 *)
  | YInitialPhreeqc2Module_mix a b f => (* 854-881; in C the number of elements of the first array is used for all *)
      match l with
      | F => if decide (length a = length b /\ length a = length f) then Ret c else Throw
      | C => if decide (length a <= length b /\ length a <= length f)
             then Ret (YInitialPhreeqc2Module_mix a (take (length a) b) (take (length a) f)) else UB
      end
  | _ => Ret c
  end.
Fixpoint tape (l : lang) (cs : list (call D)) : outcome (list (call D)) :=
  match cs with
  | [] => Ret []
  | c :: cs' => obind (recorded_as l c) (fun c' => obind (tape l cs') (fun r => Ret (c' :: r)))
  end.

(** ** Calling *)

(** An array of which [n] elements are taken *)
Definition taking {A} (n : nat) (a : list A) (f : list A -> call D) : outcome (list (call D)) :=
  obind (copy_in n (Some a)) (fun v => Ret [f v]).

(** The methods called. The lines are those of RM_interface_C.cpp and of RM_interface_F.cpp; where the C function calls
    the other, only the latter. [k] are the counts of the instance. The number of cells and of threads are given when
    an instance is made: there is nothing to call. *)
Definition direct (l : lang) (k : counts) (c : call D) : outcome (list (call D)) :=
  let grid {A} (a : list A) f := taking (n_xyz k) a f in
  match c with
  | YAddOutputVars option def => Ret [YAddOutputVars (pass l option) (pass l def)] (* BMI_interface.F90 2481-2499, BMI_interface_F.cpp 70-81 *)
  | YCreateMapping a => grid a YCreateMapping (* 791-811; 121-138 *)
  | YInitialSolutions2Module a => grid a YInitialSolutions2Module (* 1607-1617 *)
  | YInitialEquilibriumPhases2Module a => grid a YInitialEquilibriumPhases2Module (* 1623-1633 *)
  | YInitialExchanges2Module a => grid a YInitialExchanges2Module (* 1639-1649 *)
  | YInitialSurfaces2Module a => grid a YInitialSurfaces2Module (* 1655-1665 *)
  | YInitialGasPhases2Module a => grid a YInitialGasPhases2Module (* 1671-1681 *)
  | YInitialSolidSolutions2Module a => grid a YInitialSolidSolutions2Module (* 1687-1697 *)
  | YInitialKinetics2Module a => grid a YInitialKinetics2Module (* 1703-1713 *)
  | YInitialPhreeqc2Module a => (* 2137-2178; 1719-1744 *)
      taking (n_xyz k * 7) a (fun v => YInitialPhreeqc2Module_mix v (replicate (n_xyz k * 7) (-1)%Z) (replicate (n_xyz k * 7) one))
  | YInitialPhreeqc2Module_mix a b f => (* 2137-2178; 1751-1789 *)
      obind (copy_in (n_xyz k * 7) (Some a)) (fun va => obind (copy_in (n_xyz k * 7) (Some b)) (fun vb =>
      obind (copy_in (n_xyz k * 7) (Some f)) (fun vf => Ret [YInitialPhreeqc2Module_mix va vb vf])))
  | YInitialPhreeqcCell2Module n a => taking (length a) a (YInitialPhreeqcCell2Module n) (* 2182-2203; 1793-1815 *)
  | YLoadDatabase s => Ret [YLoadDatabase (name_of l s)] (* 2264-2278; 1915-1928 *)
  | YLogMessage s => (* 2281-2296; 1932-1946 *)
      Ret [YLogMessage match l with C => pass C s | F => rstrip space (pass F s) +:+ nl end]
  | YOutputMessage s => Ret [YOutputMessage match l with C => pass C s | F => pass F s +:+ nl end] (* 2335-2349; 1993-2007 *)
  | YRunFile w i u s => Ret [YRunFile w i u (name_of l s)] (* 2365-2380; 2025-2042 *)
  | YRunString w i u s => Ret [YRunString w i u match l with C => c_name (pass C s) | F => pass F s end] (* 2383-2393; 2045-2059 *)
  | YScreenMessage s => (* 2396-2410; 2062-2075 *)
      Ret match l with C => [YScreenMessage (pass C s)] | F => [YScreenMessage (pass F s); YScreenMessage nl] end
  | YSetConcentrations a => taking (n_xyz k * n_comps k) a YSetConcentrations (* 2425-2441; 2090-2105 *)
  | YSetDensityUser a => grid a YSetDensityUser (* 2465-2480; 2125-2138 *)
  | YSetDumpFileName s => Ret [YSetDumpFileName (name_of l s)] (* 2484-2498; 2143-2156 *)
  | YSetFilePrefix s => Ret [YSetFilePrefix (name_of l s)] (* 2527-2541; 2188-2201 *)
  | YSetGasCompMoles a => taking (n_xyz k * n_gas k) a YSetGasCompMoles (* 2544-2560; 2205-2217 *)
  | YSetGasPhaseVolume a => grid a YSetGasPhaseVolume (* 2563-2579; 2221-2233 *)
  | YSetGridCellCount _ | YThreadCount _ => Ret []
  | YSetNthSelectedOutput n => (* 2606-2615; RM_interface.F90 6214, 2251-2260 *)
      Ret [YSetNthSelectedOutput match l with C => n | F => (n - 1)%Z end]
  | YSetPorosity a => grid a YSetPorosity (* 2630-2646; 2282-2296 *)
  | YSetPressure a => grid a YSetPressure (* 2649-2665; 2300-2313 *)
  | YSetPrintChemistryMask a => grid a YSetPrintChemistryMask (* 2681-2697; 2336-2349 *)
  | YSetRepresentativeVolume a => grid a YSetRepresentativeVolume (* 2724-2740; 2385-2400 *)
  | YSetSaturationUser a => grid a YSetSaturationUser (* 2750-2766; 2404-2417 *)
  | YSetTemperature a => grid a YSetTemperature (* 2808-2824; 2462-2475 *)
  | YSpeciesConcentrations2Module a => taking (n_xyz k * n_species k) a YSpeciesConcentrations2Module (* 2959-2977; 2614-2631 *)
  | YWarningMessage s => (* 3031-3047; 2686-2700 *)
      Ret [YWarningMessage match l with C => rstrip space (pass C s) | F => rstrip space (pass F s) +:+ nl end]
  | _ => Ret [c] (* 719-866 (CloseFiles, DumpModule, FindComponents), 2323-2352, 2413-3028; 50-195, 1979-2010, 2078-2682 *)
  end.

(** The methods of an instance, one after the other *)
Fixpoint runs {St} (run : call D -> St -> outcome St) (ds : list (call D)) (s : St) : outcome St :=
  match ds with
  | [] => Ret s
  | d :: ds' => obind (run d s) (runs run ds')
  end.
(** A program that makes the calls on an instance, whose counts are [cnt] *)
Fixpoint drive {St} (run : call D -> St -> outcome St) (cnt : St -> counts) (l : lang) (cs : list (call D)) (s : St)
    : outcome St :=
  match cs with
  | [] => Ret s
  | c :: cs' => obind (direct l (cnt s) c) (fun ds => obind (runs run ds s) (drive run cnt l cs'))
  end.
End Direct.
