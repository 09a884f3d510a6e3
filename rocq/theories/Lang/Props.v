(** C39 (name getters), C40 (texts in the caller's buffer). *)
From Coq Require Import ZArith Ascii String Lia.
From stdpp Require Import prelude strings.
From Verif.Base Require Import Result.
From Verif.Find Require Import Model.
From Verif.Lang Require Import Model Spec Proofs.
Open Scope list_scope.

(** ** C39 *)

(** The getters whose test admits the number of names itself. *)
Definition too_wide (g : getter) : Prop := g <> Component /\ g <> SpeciesName.

(** C: for a number of the list and a buffer with room, the name is delivered; for any other number
    the call is refused and the buffer is left alone, except that eleven getters have to be spared
    the number of names itself. *)
Theorem c_getter {D} (g : getter) (l : lists D string) num buf l1 :
  (0 < l1 < 2 ^ 31)%Z -> (l1 <= Z.of_nat (length buf))%Z ->
  (too_wide g -> num <> Z.of_nat (length (names_of g l))) ->
  (forall s, (0 <= num)%Z -> names_of g l !! Z.to_nat num = Some s ->
     NUL ∉ list_ascii_of_string s -> (Z.of_nat (String.length s) < l1)%Z ->
     exists b, c_get g (Some l) num (Some buf) l1 = Ret (IRM_OK, Some b)
       /\ c_reads b (list_ascii_of_string s) /\ length b = length buf)
  /\ ((num < 0 \/ Z.of_nat (length (names_of g l)) <= num)%Z ->
     c_get g (Some l) num (Some buf) l1 = Ret (IRM_INVALIDARG, Some buf)).
Proof.
  intros Hl Hb Hw. unfold c_get. rewrite counts_agree.
  assert (0 <? l1 = true)%Z as -> by lia. rewrite orb_true_r. split.
  - intros s H0 Hs Hn Hlen. pose proof (lookup_lt_Some _ _ _ Hs) as Hlt.
    assert (c_in_range g num (length (names_of g l)) = true) as ->.
    { unfold c_in_range. destruct g; apply andb_true_iff; split; lia. }
    simpl. unfold name_at. rewrite Hs. simpl. rewrite cstr_id by done.
    assert (length (list_ascii_of_string s) = String.length s) as El.
    { clear. induction s; simpl; [done|]. by f_equal. }
    destruct (strncpy_fits buf (list_ascii_of_string s) l1) as (b & -> & Hr & Hlb & _); [rewrite El; lia|lia|done|].
    exists b. done.
  - intros Hout. assert (c_in_range g num (length (names_of g l)) = false) as ->.
    { unfold c_in_range.
      assert (~ too_wide g \/ num <> Z.of_nat (length (names_of g l))) as Hc.
      { destruct (decide (num = Z.of_nat (length (names_of g l)))); [left; intros HH; by apply Hw|by right]. }
      destruct g; apply andb_false_iff; try lia; (destruct Hc as [Hc|Hc]; [exfalso; apply Hc; split; done|lia]). }
    done.
Qed.
Print Assumptions c_getter.

(** With the number of names itself those eleven read past the end of the vector, whatever it holds. *)
Theorem c_getter_refuted {D} (g : getter) (l : lists D string) buf l1 :
  too_wide g -> (0 < l1)%Z ->
  c_get g (Some l) (Z.of_nat (length (names_of g l))) (Some buf) l1 = UB.
Proof.
  intros [H1 H2] Hl. unfold c_get. rewrite counts_agree. assert (0 <? l1 = true)%Z as -> by lia. rewrite orb_true_r.
  assert (c_in_range g (Z.of_nat (length (names_of g l))) (length (names_of g l)) = true) as ->.
  { unfold c_in_range. generalize (length (names_of g l)). intros n. destruct g; try congruence; apply andb_true_iff; split; apply Z.leb_le; lia. }
  simpl. rewrite name_at_out by lia. done.
Qed.
Print Assumptions c_getter_refuted.

(** RM_GetSpeciesName runs out of any buffer when the length is negative. *)
Theorem c_species_length_refuted {D} (l : lists D string) num buf l1 s :
  (0 <= num)%Z -> l_species l !! Z.to_nat num = Some s ->
  (-2 ^ 31 <= l1 < 0)%Z -> (Z.of_nat (length buf) < 2 ^ 63)%Z ->
  c_get SpeciesName (Some l) num (Some buf) l1 = UB.
Proof.
  intros H0 Hs Hl Hb. unfold c_get. pose proof (lookup_lt_Some _ _ _ Hs) as Hlt. simpl.
  assert (((0 <=? num) && (num <? Z.of_nat (length (l_species l))))%Z = true) as ->.
  { apply andb_true_iff; split; lia. }
  unfold name_at. rewrite Hs. simpl. rewrite strncpy_ub by lia. done.
Qed.
Print Assumptions c_species_length_refuted.

(** Fortran: numbers from 1; the name is delivered exactly for the numbers of the list, padded or
    cut to the length, and every other number is refused. *)
Theorem f_getter {D} (g : getter) (l : lists D string) num buf l1 :
  (0 < l1 < 2 ^ 31)%Z -> (l1 <= Z.of_nat (length buf))%Z ->
  (forall s, (0 < num)%Z -> names_of g l !! Z.to_nat (num - 1) = Some s -> NUL ∉ list_ascii_of_string s ->
     let t := list_ascii_of_string s in
     f_get g (Some l) num buf l1 =
     Ret (IRM_OK, take (Z.to_nat l1) t ++ replicate (Z.to_nat l1 - length t) blank ++ drop (Z.to_nat l1) buf))
  /\ ((num <= 0 \/ Z.of_nat (length (names_of g l)) < num)%Z ->
     f_get g (Some l) num buf l1 = Ret (IRM_INVALIDARG, buf)).
Proof.
  intros Hl Hb. unfold f_get. rewrite counts_agree. assert (0 <? l1 = true)%Z as -> by lia. rewrite orb_true_r. split.
  - intros s H0 Hs Hn. pose proof (lookup_lt_Some _ _ _ Hs) as Hlt.
    assert (((0 <? num) && (num <=? Z.of_nat (length (names_of g l))))%Z = true) as ->.
    { apply andb_true_iff; split; lia. }
    simpl. unfold name_at. rewrite Hs. simpl. rewrite cstr_id by done. by rewrite f_pad_spec by lia.
  - intros Hout. assert (((0 <? num) && (num <=? Z.of_nat (length (names_of g l))))%Z = false) as ->; [|done].
    apply andb_false_iff. lia.
Qed.
Print Assumptions f_getter.

(** No getter touches anything for an unknown instance. *)
Theorem getter_instance {D} g num buf l1 :
  c_get (D:=D) g None num (Some buf) l1 = Ret (IRM_BADINSTANCE, Some buf)
  /\ f_get (D:=D) g None num buf l1 = Ret (IRM_BADINSTANCE, buf).
Proof. done. Qed.

Definition two : lists Z string := Lists [] [] [] [] ["Calcite"%string; "CO2(g)"%string] [] [("NaX", "X")]%string [] [] [] [].
Definition buf8 : text := list_ascii_of_string "????????".
Example getter_case :
  c_get SInames (Some two) 1 (Some buf8) 7 = Ret (IRM_OK, Some (list_ascii_of_string "CO2(g)" ++ [NUL; "?"%char]))
  /\ c_get SInames (Some two) 3 (Some buf8) 7 = Ret (IRM_INVALIDARG, Some buf8)
  /\ c_get ExchangeName (Some two) 1 (Some buf8) 7 = UB
  /\ f_get ExchangeName (Some two) 1 buf8 3 = Ret (IRM_OK, list_ascii_of_string "X  ?????").
Proof. vm_compute. split_and!; reflexivity. Qed.

(** ** C40 *)

(** C, rmpadfstring: the result is always terminated, holds as much of the text as there is room
    for, and nothing beyond the stated length is touched; the text is whole when IRM_OK is returned. *)
Theorem c_padded buf src len : (0 < len < 2 ^ 31)%Z -> (len <= Z.of_nat (length buf))%Z -> NUL ∉ src ->
  exists r b, c_padstring buf src len = Ret (r, b)
    /\ c_reads b (take (Z.to_nat (len - 1)) src) /\ length b = length buf
    /\ drop (Z.to_nat len) b = drop (Z.to_nat len) buf
    /\ (r = IRM_OK \/ r = IRM_INVALIDARG)
    /\ (r = IRM_OK -> c_reads b src)
    /\ (r = IRM_OK <-> (Z.of_nat (length src) < len - 1)%Z).
Proof.
  intros H Hb Hs. destruct (c_pad_spec buf src len) as (b & E & H1 & H2 & H3); [lia|lia|done|].
  exists (if (Z.of_nat (length src) <? len - 1)%Z then IRM_OK else IRM_INVALIDARG), b.
  destruct (Z.ltb_spec (Z.of_nat (length src)) (len - 1)) as [Hlt|Hge].
  - split_and!; try done; [by left|]. intros _. by rewrite take_ge in H1 by lia.
  - split_and!; try done; [by right|]. split; [done|lia].
Qed.
Print Assumptions c_padded.

(** A text that fits exactly is delivered whole and reported as not fitting. *)
Theorem c_padded_exact_refuted buf src len :
  (0 < len < 2 ^ 31)%Z -> (len <= Z.of_nat (length buf))%Z -> NUL ∉ src -> Z.of_nat (length src) = (len - 1)%Z ->
  exists b, c_padstring buf src len = Ret (IRM_INVALIDARG, b) /\ c_reads b src.
Proof.
  intros H Hb Hs Hlen. destruct (c_pad_spec buf src len) as (b & E & H1 & H2 & H3); [lia|lia|done|].
  rewrite Hlen, Z.ltb_irrefl in E. exists b. split; [done|]. by rewrite take_ge in H1 by lia.
Qed.
Print Assumptions c_padded_exact_refuted.

(** A negative length is not refused: the whole text is written, even past the end of the buffer. *)
Theorem c_padded_negative_refuted buf src len : (-2 ^ 31 <= len < 0)%Z ->
  (length buf <= length src)%nat -> (Z.of_nat (length src) < 2 ^ 63)%Z -> c_padstring buf src len = UB.
Proof.
  intros H Hb Hs. unfold c_padstring. rewrite decide_False by lia.
  replace ((len - 1) mod 2 ^ 64)%Z with (len - 1 + 2 ^ 64)%Z.
  - assert (Z.of_nat (length src) <? len - 1 + 2 ^ 64 = true)%Z as -> by lia.
    unfold store. rewrite decide_False; [done|]. rewrite app_length. simpl. lia.
  - rewrite <- (Z.mod_small (len - 1 + 2 ^ 64) (2 ^ 64)) by lia. rewrite <- (Z_mod_plus_full (len - 1) 1 (2 ^ 64)). f_equal; lia.
Qed.
Print Assumptions c_padded_negative_refuted.

(** C, getters: a name as long as the stated length or longer is delivered with IRM_OK, cut and
    without a terminator. *)
Theorem c_getter_unterminated_refuted {D} (g : getter) (l : lists D string) num buf l1 s :
  (0 < l1 < 2 ^ 31)%Z -> Z.of_nat (length buf) = l1 ->
  (0 <= num)%Z -> names_of g l !! Z.to_nat num = Some s -> NUL ∉ list_ascii_of_string s ->
  (l1 <= Z.of_nat (length (list_ascii_of_string s)))%Z ->
  exists b, c_get g (Some l) num (Some buf) l1 = Ret (IRM_OK, Some b)
    /\ c_unterminated b /\ b = take (Z.to_nat l1) (list_ascii_of_string s).
Proof.
  intros Hl Hb H0 Hs Hn Hlen. pose proof (lookup_lt_Some _ _ _ Hs) as Hlt. unfold c_get. rewrite counts_agree.
  assert (0 <? l1 = true)%Z as -> by lia. rewrite orb_true_r.
  assert (c_in_range g num (length (names_of g l)) = true) as ->.
  { unfold c_in_range. destruct g; apply andb_true_iff; split; lia. }
  simpl. unfold name_at. rewrite Hs. simpl. rewrite cstr_id by done.
  destruct (strncpy_long buf (list_ascii_of_string s) l1) as (b & -> & H1 & H2 & H3); [lia|lia|lia|done|].
  simpl. exists b. rewrite (drop_ge buf) in H3 by lia. pose proof (take_drop (Z.to_nat l1) b) as Hb'.
  rewrite H3, app_nil_r in Hb'. rewrite Hb' in *. split_and!; done.
Qed.
Print Assumptions c_getter_unterminated_refuted.

(** The error string is whole when the buffer is one character longer than RM_GetErrorStringLength. *)
Theorem c_error_whole s buf :
  NUL ∉ s -> (c_error_length s + 1 <= Z.of_nat (length buf))%Z -> (c_error_length s + 1 < 2 ^ 31)%Z ->
  exists b, c_error_string s buf (c_error_length s + 1) = Ret (IRM_OK, b) /\ c_reads b s.
Proof.
  unfold c_error_length, c_error_string. intros Hs Hb Hl. rewrite cstr_id by done.
  destruct (strncpy_fits buf s (Z.of_nat (length s) + 1)) as (b & -> & Hr & _); [lia|lia|done|]. by exists b.
Qed.
Print Assumptions c_error_whole.

(** Fortran: exactly the stated length is filled, with the text and blanks; TRIM gives the text back
    when it fits and does not end in a blank. *)
Theorem f_padded buf src len : (0 <= len < 2 ^ 31)%Z -> (len <= Z.of_nat (length buf))%Z ->
  exists b, f_padstring buf src len = Ret b /\ length b = length buf
    /\ drop (Z.to_nat len) b = drop (Z.to_nat len) buf
    /\ (Z.to_nat len <= length src -> take (Z.to_nat len) b = take (Z.to_nat len) src)%nat
    /\ ((length src <= Z.to_nat len)%nat -> no_trailing_blank src -> trim (take (Z.to_nat len) b) = src).
Proof.
  intros H Hb. rewrite f_pad_spec by lia. eexists; split; [done|].
  assert (length (take (Z.to_nat len) src ++ replicate (Z.to_nat len - length src) blank) = Z.to_nat len) as Hl.
  { rewrite app_length, take_length, replicate_length. lia. }
  rewrite (assoc_L (++)). rewrite app_length, drop_length, Hl. rewrite take_app_alt, drop_app_alt by done. split_and!.
  - lia.
  - done.
  - intros Hle. replace (Z.to_nat len - length src)%nat with 0%nat by lia. simpl. by rewrite app_nil_r.
  - intros Hle Ht. rewrite take_ge by lia. rewrite trim_blanks. exact Ht.
Qed.
Print Assumptions f_padded.

(** Names packed for Fortran: the buffer of (number of names) times (longest name) is filled exactly,
    and trimming the records gives the names back. *)
Theorem names_packed v dest :
  length dest = (length v * names_size v)%nat ->
  exists b, get_names v dest = Ret b /\ length b = length dest
    /\ forall i s, v !! i = Some s -> no_trailing_blank s -> trim (record (names_size v) i b) = s.
Proof.
  intros Hd. assert (forall s, s ∈ v -> (length s <= names_size v)%nat) as Hw.
  { intros s Hs. apply names_size_ge. by left. }
  pose proof (packed_length (names_size v) v Hw) as Hp.
  unfold get_names. rewrite store_ok by lia. eexists; split; [done|]. rewrite app_length, drop_length. split; [lia|].
  intros i s Hi Hs. rewrite (packed_record (names_size v) v _ Hw i s Hi). unfold setw_left. rewrite trim_blanks. exact Hs.
Qed.
Print Assumptions names_packed.

Example padded_case :
  c_padstring buf8 (list_ascii_of_string "Ca") 4 = Ret (IRM_OK, list_ascii_of_string "Ca" ++ NUL :: list_ascii_of_string "?????")
  /\ c_padstring buf8 (list_ascii_of_string "Ca") 3 = Ret (IRM_INVALIDARG, list_ascii_of_string "Ca" ++ NUL :: list_ascii_of_string "?????")
  /\ f_padstring buf8 (list_ascii_of_string "Ca") 4 = Ret (list_ascii_of_string "Ca  ????")
  /\ strncpy buf8 (list_ascii_of_string "Calcite") 4 = Ret (list_ascii_of_string "Calc????")
  /\ no_trailing_blank (list_ascii_of_string "a b")
  /\ get_names (map list_ascii_of_string ["Ca"; "Na+"]%string) (take 6 buf8) = Ret (list_ascii_of_string "Ca Na+").
Proof. vm_compute. split_and!; reflexivity. Qed.
