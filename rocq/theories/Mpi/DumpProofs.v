(** DumpModule of the MPI build: the file is that of the build with threads. *)
From Coq Require Import ZArith Ascii.
From stdpp Require Import prelude gmap relations.
From Verif.Base Require Import Result.
From Verif.Mapping Require Import Model Spec.
From Verif.Mpi Require Import Comm Methods Model Spec CommProofs Cells Parts Agree.
From Verif.Files Require Model Proofs.
Local Open Scope Z_scope.

Section dump.
  Context {D X : Type} (L : local D X) {R : Type}.
  Notation ps := (ps D X).
  Notation step := (step (loop L) (R := R)).
  Notation idle := (idle (D := D) (X := X)).
  Notation empties n := (replicate n (@nil (msg D))).
  Implicit Types (s w : ps) (ws : list ps).

  Lemma dump_write_ok fails kf t : (forall i, fails i = false) ->
    exists k', dump_write fails kf t = (k', kf.2 ++ t, IRM_OK).
  Proof.
    intros Hf. unfold dump_write. destruct kf as [k f]. cbn [fst snd].
    set (ps := Files.Model.pieces (length t) gz_block t).
    assert ((Files.Model.write_pieces fails k ps f).2 = IRM_OK) as Hok by (apply Files.Proofs.write_pieces_ok; intros; apply Hf).
    destruct (Files.Proofs.write_pieces_last _ _ _ _ Hok) as [Hl _].
    exists (k + length ps)%nat. rewrite Hok. do 2 f_equal.
    transitivity (List.last (f :: (Files.Model.write_pieces fails k ps f).1) f); [apply Files.Proofs.last_default|]. rewrite Hl. f_equal. apply Files.Proofs.pieces_concat; [done|unfold gz_block; lia].
  Qed.

  Lemma takes_dump {T} fails (bad : list ascii -> prog D T) good : (forall i, fails i = false) ->
    forall (ts : list (list ascii)) n0 k f, exists k',
    takes (dump_receive fails (seq (S n0) (length ts)) (k, f) bad good)
      (empties n0 ++ map (fun t => [Ints [Z.of_nat (length t)]; Text t]) ts)
      (good (k', f ++ concat ts)) (empties (n0 + length ts)).
  Proof.
    intros Hf. induction ts as [|t ts IH]; intros n0 k f.
    - exists k. cbn. rewrite !app_nil_r, Nat.add_0_r. constructor.
    - cbn [length seq dump_receive map].
      assert (forall q (l : list (list (msg D))), (empties n0 ++ q :: l) !! n0 = Some q) as Hq.
      { intros q l. rewrite lookup_app_r by (rewrite replicate_length; done). by rewrite replicate_length, Nat.sub_diag. }
      assert (forall q q' (l : list (list (msg D))), <[n0 := q']> (empties n0 ++ q :: l) = empties n0 ++ q' :: l) as Hi.
      { intros q q' l. rewrite insert_app_r_alt by (rewrite replicate_length; done). by rewrite replicate_length, Nat.sub_diag. }
      assert (forall l : list (list (msg D)), empties n0 ++ [] :: l = empties (S n0) ++ l) as He.
      { intros l. rewrite replicate_S_end, <- app_assoc. done. }
      destruct (dump_write_ok fails (k, f) t Hf) as [k1 E1].
      destruct (IH (S n0) k1 (f ++ t)) as [k2 IH2]. exists k2.
      replace (n0 + S (length ts))%nat with (S n0 + length ts)%nat by lia.
      eapply takes_recv.
      { unfold received. rewrite Hq. rewrite decide_True by (cbn; split; [done|lia]). by rewrite Hi. }
      eapply takes_recv.
      { unfold received. rewrite Hq. rewrite decide_True by (cbn; split; [done|lia]). by rewrite Hi. }
      rewrite He. cbn [text_of]. rewrite E1. cbn [fst snd]. rewrite decide_True by done.
      cbn [concat]. rewrite app_assoc. exact IH2.
  Qed.

  (** The text of one block *)
  Definition block_text (all : list ps) (ib : nat) : list ascii := concat (imap (fun n w => dump_text L n w ib) all).
  Lemma go_dump s ws fails (bad good : list ascii -> prog D R) (ks : nat -> ps -> prog D (nat * ps * bool)) :
    (forall i, fails i = false) -> tasks s = S (length ws) ->
    forall nb ib k f,
      rtc step (Config (dump_root L fails nb ib s (k, f) bad good) (imap (fun i w => dump_blocks L nb ib (S i) w (ks i w)) ws) (empties (length ws)))
               (Config (good (f ++ concat (map (block_text (s :: ws)) (seq ib nb)))) (imap ks ws) (empties (length ws))).
  Proof.
    intros Hf Ht. induction nb as [|nb IH]; intros ib k f; cbn [dump_root dump_blocks].
    - cbn. rewrite app_nil_r. reflexivity.
    - destruct (dump_write_ok fails (k, f) (dump_text L 0 s ib) Hf) as [k1 E1]. rewrite E1. cbn [fst snd].
      rewrite decide_True by done. rewrite Ht. replace (S (length ws) - 1)%nat with (length ws) by lia.
      set (ts := imap (fun i w => dump_text L (S i) w ib) ws).
      assert (length ts = length ws) as Hlt by apply imap_length.
      destruct (takes_dump fails bad (fun kf1 => Barrier (dump_root L fails nb (S ib) s kf1 bad good)) Hf ts 0 k1 (f ++ dump_text L 0 s ib)) as [k2 Htk].
      rewrite Hlt in Htk. cbn [replicate app plus] in Htk.
      eapply rtc_transitive.
      { eapply (go_exchange (loop L) _ _ ws (fun i w => [Ints [Z.of_nat (length (dump_text L (S i) w ib))]; Text (dump_text L (S i) w ib)]) _
          (fun i w => Barrier (dump_blocks L nb (S ib) (S i) w (ks i w)))).
        - intros i w _. reflexivity.
        - assert (imap (fun i w => [Ints [Z.of_nat (length (dump_text L (S i) w ib))]; Text (dump_text L (S i) w ib)]) ws
                  = map (fun t => [Ints [Z.of_nat (length t)]; Text t]) ts) as ->; [|exact Htk].
          unfold ts. change (map ?g ?l) with (g <$> l). rewrite fmap_imap. done. }
      eapply rtc_transitive; [apply (go_barrier (loop L)); intros i w _; reflexivity|].
      cbn [seq map concat]. specialize (IH (S ib) k2 ((f ++ dump_text L 0 s ib) ++ concat ts)).
      replace (f ++ block_text (s :: ws) ib ++ concat (map (block_text (s :: ws)) (seq (S ib) nb)))
        with (((f ++ dump_text L 0 s ib) ++ concat ts) ++ concat (map (block_text (s :: ws)) (seq (S ib) nb))); [exact IH|].
      unfold block_text at 2. cbn [imap concat]. rewrite <- !app_assoc. done.
  Qed.

  (** ** Failing writes *)
  Lemma write_pieces_app {A} fails (p q : list (list A)) : forall k f g,
    (Files.Model.write_pieces fails k (p ++ q) f).2 = IRM_OK <->
    (Files.Model.write_pieces fails k p f).2 = IRM_OK /\ (Files.Model.write_pieces fails (k + length p) q g).2 = IRM_OK.
  Proof.
    assert (forall (l : list (list A)) k f, (Files.Model.write_pieces fails k l f).2 = IRM_OK <-> forall i, (i < length l)%nat -> fails (k + i)%nat = false) as H.
    { intros l k f. split; [intros Hw%Files.Proofs.write_pieces_last; apply Hw|apply Files.Proofs.write_pieces_ok]. }
    intros k f g. rewrite !H, app_length. split.
    - intros Hi. split; intros i Hl; [apply Hi; lia|]. rewrite <- Nat.add_assoc. apply Hi. lia.
    - intros [Hp Hq] i Hl. destruct (decide (i < length p)%nat); [by apply Hp|].
      replace (k + i)%nat with (k + length p + (i - length p))%nat by lia. apply Hq. lia.
  Qed.
  Definition parts_of (t : list ascii) : list (list ascii) := Files.Model.pieces (length t) gz_block t.
  Lemma dump_write_spec fails k f t : exists f',
    dump_write fails (k, f) t = ((k + length (parts_of t))%nat, f', (Files.Model.write_pieces fails k (parts_of t) f).2).
  Proof. eexists. reflexivity. Qed.
  (** Either all texts are received and written, or the root leaves. *)
  Lemma takes_dump_any {T} fails (bad : list ascii -> prog D T) good :
    forall (ts : list (list ascii)) n0 k f,
    (exists f', takes (dump_receive fails (seq (S n0) (length ts)) (k, f) bad good)
        (empties n0 ++ map (fun t => [Ints [Z.of_nat (length t)]; Text t]) ts)
        (good ((k + length (concat (map parts_of ts)))%nat, f')) (empties (n0 + length ts)) /\
        (Files.Model.write_pieces fails k (concat (map parts_of ts)) f).2 = IRM_OK) \/
    (exists f' qs, takes (dump_receive fails (seq (S n0) (length ts)) (k, f) bad good)
        (empties n0 ++ map (fun t => [Ints [Z.of_nat (length t)]; Text t]) ts) (bad f') qs).
  Proof.
    induction ts as [|t ts IH]; intros n0 k f.
    - left. exists f. cbn. rewrite !app_nil_r, !Nat.add_0_r. split; [constructor|done].
    - cbn [length seq dump_receive map].
      assert (forall q (l : list (list (msg D))), (empties n0 ++ q :: l) !! n0 = Some q) as Hq.
      { intros q l. rewrite lookup_app_r by (rewrite replicate_length; done). by rewrite replicate_length, Nat.sub_diag. }
      assert (forall q q' (l : list (list (msg D))), <[n0 := q']> (empties n0 ++ q :: l) = empties n0 ++ q' :: l) as Hi.
      { intros q q' l. rewrite insert_app_r_alt by (rewrite replicate_length; done). by rewrite replicate_length, Nat.sub_diag. }
      assert (forall l : list (list (msg D)), empties n0 ++ [] :: l = empties (S n0) ++ l) as He.
      { intros l. rewrite replicate_S_end, <- app_assoc. done. }
      destruct (dump_write_spec fails k f t) as [f1 E1].
      assert (forall p qs, takes (let '(kf', c) := dump_write fails (k, f) t in
                 if decide (c = IRM_OK) then dump_receive fails (seq (S (S n0)) (length ts)) kf' bad good else bad kf'.2)
                 (empties (S n0) ++ map (fun t => [Ints [Z.of_nat (length t)]; Text t]) ts) p qs ->
               takes (Recv (S n0) TInt 1 (fun z => Recv (S n0) TText (Z.to_nat (int_of z)) (fun t =>
                 let '(kf', c) := dump_write fails (k, f) (text_of t) in
                 if decide (c = IRM_OK) then dump_receive fails (seq (S (S n0)) (length ts)) kf' bad good else bad kf'.2)))
                 (empties n0 ++ [Ints [Z.of_nat (length t)]; Text t] :: map (fun t => [Ints [Z.of_nat (length t)]; Text t]) ts) p qs) as Hr.
      { intros p qs H. eapply takes_recv.
        { unfold received. rewrite Hq. rewrite decide_True by (cbn; split; [done|lia]). by rewrite Hi. }
        eapply takes_recv.
        { unfold received. rewrite Hq. rewrite decide_True by (cbn; split; [done|lia]). by rewrite Hi. }
        rewrite He. exact H. }
      rewrite E1 in Hr. destruct (decide ((Files.Model.write_pieces fails k (parts_of t) f).2 = IRM_OK)) as [Hok|Hno].
      + destruct (IH (S n0) (k + length (parts_of t))%nat f1) as [(f2 & H2 & Hw)|(f2 & qs & H2)].
        * left. exists f2. split.
          -- cbn [concat]. rewrite app_length, Nat.add_assoc. replace (n0 + S (length ts))%nat with (S n0 + length ts)%nat by lia.
             apply Hr. exact H2.
          -- cbn [concat]. apply (write_pieces_app _ _ _ _ _ f1). done.
        * right. exists f2, qs. by apply Hr.
      + right. exists f1, (empties (S n0) ++ map (fun t => [Ints [Z.of_nat (length t)]; Text t]) ts). apply Hr. constructor.
  Qed.

  Definition block_parts (all : list ps) (ib : nat) : list (list ascii) :=
    concat (imap (fun n w => parts_of (dump_text L n w ib)) all).
  Lemma go_dump_bad s ws fails (bad good : list ascii -> prog D R) (ks : nat -> ps -> prog D (nat * ps * bool)) :
    tasks s = S (length ws) ->
    forall nb ib k f, (Files.Model.write_pieces fails k (concat (map (block_parts (s :: ws)) (seq ib nb))) f).2 <> IRM_OK ->
      exists f' ks' qs,
      rtc step (Config (dump_root L fails nb ib s (k, f) bad good) (imap (fun i w => dump_blocks L nb ib (S i) w (ks i w)) ws) (empties (length ws)))
               (Config (bad f') (imap (fun i w => Barrier (ks' i w)) ws) qs).
  Proof.
    intros Ht. induction nb as [|nb IH]; intros ib k f Hno; [done|]. cbn [dump_root dump_blocks].
    destruct (dump_write_spec fails k f (dump_text L 0 s ib)) as [f1 E1]. rewrite E1.
    rewrite Ht. replace (S (length ws) - 1)%nat with (length ws) by lia.
    set (msgs := fun i w => [Ints [Z.of_nat (length (dump_text L (S i) w ib))]; Text (dump_text L (S i) w ib)] : list (msg D)).
    set (after := fun i (w : ps) => Barrier (dump_blocks L nb (S ib) (S i) w (ks i w))).
    assert (forall p : prog D R, rtc step (Config p (imap (fun i w => send_text (dump_text L (S i) w ib) (after i w)) ws) (empties (length ws)))
              (Config p (imap after ws) (imap msgs ws))) as Hsends.
    { intros p. assert (imap (fun i w => send_text (dump_text L (S i) w ib) (after i w)) ws = zip_with (fun ms k => sends ms k) (imap msgs ws) (imap after ws)) as ->.
      { apply list_eq. intros i. rewrite lookup_zip_with, !list_lookup_imap. by destruct (ws !! i). }
      rewrite <- (imap_length after ws). apply run_sends. by rewrite !imap_length. }
    destruct (decide _) as [Hok|Hbad].
    2:{ exists f1, (fun i w => dump_blocks L nb (S ib) (S i) w (ks i w)), (imap msgs ws). apply Hsends. }
    set (ts := imap (fun i w => dump_text L (S i) w ib) ws).
    assert (length ts = length ws) as Hlt by apply imap_length.
    assert (imap msgs ws = map (fun t => [Ints [Z.of_nat (length t)]; Text t]) ts) as Em.
    { unfold ts. change (map ?g ?l) with (g <$> l). rewrite fmap_imap. done. }
    destruct (takes_dump_any fails bad (fun kf1 => Barrier (dump_root L fails nb (S ib) s kf1 bad good)) ts 0 (k + length (parts_of (dump_text L 0 s ib))) f1)
      as [(f2 & Htk & Hw)|(f2 & qs & Htk)]; rewrite Hlt in Htk; cbn [replicate app plus] in Htk; rewrite <- Em in Htk.
    - edestruct (IH (S ib)) as (f' & ks' & qs & Hgo); [|exists f', ks', qs].
      2:{ eapply rtc_transitive; [apply Hsends|]. eapply rtc_transitive; [eapply run_takes, Htk|].
          eapply rtc_transitive; [apply (go_barrier (loop L)); intros i w _; reflexivity|]. exact Hgo. }
      intros Hok2. apply Hno. cbn [seq map concat]. apply (write_pieces_app _ _ _ _ _ f2). split.
      + unfold block_parts. cbn [imap concat]. apply (write_pieces_app _ _ _ _ _ f1). split; [done|].
        assert (imap (λ n w, parts_of (dump_text L (S n) w ib)) ws = map parts_of ts) as E; [|unfold compose; rewrite E; exact Hw].
        unfold ts. change (map ?g ?l) with (g <$> l). by rewrite fmap_imap.
      + assert (length (block_parts (s :: ws) ib) = length (parts_of (dump_text L 0 s ib)) + length (concat (map parts_of ts)))%nat as E.
        { unfold block_parts. cbn [imap concat]. rewrite app_length. do 2 f_equal. unfold ts. change (map ?g ?l) with (g <$> l). by rewrite fmap_imap. }
        rewrite E, Nat.add_assoc. exact Hok2.
    - exists f2, (fun i w => dump_blocks L nb (S ib) (S i) w (ks i w)), qs.
      eapply rtc_transitive; [apply Hsends|]. eapply run_takes, Htk.
  Qed.

  (** The blocks together are the text of the build with threads. *)
  Lemma dump_text_at (all : list ps) (m : mapping_state) n w r ib :
    all !! n = Some w -> start_cell (p_map w) = start_cell m -> end_cell (p_map w) = end_cell m -> ranges m !! n = Some r ->
    dump_text L n w ib = Files.Model.worker_text (text_at L all) (Files.Model.block_items dump_block n r.1 r.2 ib).
  Proof.
    intros Ew E1 E2 Hrn. unfold dump_text. assert (ranges (p_map w) = ranges m) as -> by (unfold ranges; by rewrite E1, E2).
    rewrite Hrn. unfold Files.Model.worker_text. f_equal. apply map_ext_in. intros it Hin%elem_of_list_In.
    unfold text_at. assert (it.1.1 = n) as ->; [|by rewrite Ew].
    unfold Files.Model.block_items in Hin. destruct (_ <=? _); [|by apply elem_of_nil in Hin].
    unfold Files.Model.range_items in Hin. apply Files.Proofs.elem_concat_map in Hin as (kd & _ & Hin).
    apply elem_of_list_In, in_map_iff in Hin as (j & <- & _). done.
  Qed.
  Lemma imap_all {A} (all : list ps) (m : mapping_state) (f : nat -> ps -> A) (g : nat -> Z * Z -> A) :
    length all = length (ranges m) ->
    (forall n w r, all !! n = Some w -> ranges m !! n = Some r -> f n w = g n r) -> imap f all = imap g (ranges m).
  Proof.
    intros Hl H. apply list_eq. intros n. rewrite !list_lookup_imap. destruct (all !! n) as [w|] eqn:Ew.
    - destruct (lookup_lt_is_Some_2 (ranges m) n) as [r Hrn]; [rewrite <- Hl; by eapply lookup_lt_Some|].
      rewrite Hrn. cbn. f_equal. by apply H.
    - rewrite lookup_ge_None_2; [done|]. rewrite <- Hl. by apply lookup_ge_None.
  Qed.
  Definition alike (m : mapping_state) (all : list ps) : Prop :=
    length all = length (ranges m) /\
    forall n w, all !! n = Some w -> start_cell (p_map w) = start_cell m /\ end_cell (p_map w) = end_cell m.
  Lemma in_step_alike k s ws : in_step k s ws -> alike (p_map s) (s :: ws).
  Proof.
    intros I. split.
    - unfold ranges. rewrite zip_with_length. cbn [length].
      pose proof (is_map _ _ _ I) as G. pose proof (gm_length _ _ G). destruct (gm_split _ _ G). lia.
    - intros n w Hw. destruct n as [|n]; [by injection Hw as <-|].
      destruct (is_ranges _ _ _ I w) as (_ & _ & _ & _ & ? & ?); [by eapply elem_of_list_lookup_2|]. done.
  Qed.
  Lemma block_texts_all (all : list ps) (m : mapping_state) ib : alike m all ->
    block_text all ib = Files.Model.worker_text (text_at L all) (Files.Model.one_block dump_block (ranges m) ib).
  Proof.
    intros [Hl Hr]. unfold block_text, Files.Model.one_block.
    rewrite Files.Proofs.worker_text_concat. f_equal. change (map ?g ?l) with (g <$> l). rewrite fmap_imap.
    apply imap_all; [done|]. intros n w r Hw Hn. destruct (Hr n w Hw). by apply (dump_text_at all m).
  Qed.
  Lemma block_parts_all (all : list ps) (m : mapping_state) ib : alike m all ->
    block_parts all ib = Files.Model.block_pieces (Z.to_nat 4094) (text_at L all) 5000 (ranges m) ib.
  Proof.
    intros [Hl Hr]. unfold block_parts, Files.Model.block_pieces. f_equal.
    apply imap_all; [done|]. intros n w r Hw Hn. destruct (Hr n w Hw). by rewrite (dump_text_at all m n w r).
  Qed.
  Lemma block_parts_clear s ws ib : block_parts (clear s :: imap (fun _ w => clear w) ws) ib = block_parts (s :: ws) ib.
  Proof. unfold block_parts. cbn [imap]. f_equal. f_equal. rewrite imap_imap. done. Qed.

  Lemma dump_served k s ws on append opens fails old : in_step k s ws -> (forall i, fails i = false) ->
    exists s' ws' a, length ws' = length ws /\ serves L (R := R) (dump_call L on append opens fails old s) ws s' ws' a /\
      in_step k s' ws' /\ call_result L (Dump on append opens fails old) s ws a s' ws'.
  Proof.
    intros I Hf. cbn [call_result]. unfold dump_result.
    set (sc := clear s). set (wsc := imap (fun _ w => clear w) ws).
    assert (Ha : forall K, rtc step (Config (announce DumpModule (Bcast (Ints [bit on]) K)) (imap idle ws) (empties (length ws))) (Config (K (Ints [bit on])) (imap (fun i w =>
       if decide (bit on = 0) then idle i (clear w)
       else Bcast (Ints [0]) (fun rc =>
              if decide (int_of rc = 0) then dump_blocks L (blocks_of (p_map (clear w))) 0 (S i) (clear w) (idle i (with_x (l_end L (p_x (clear w))) (clear w)))
              else idle i (returned L IRM_FAIL (clear w)))) ws) (empties (length ws)))).
    { intros K. eapply rtc_transitive; [by apply (go_announce L DumpModule DumpModule)|]. cbn [work]. unfold dump_worker.
      apply (go_bcast (loop L) _ _ ws _). intros i w _. eexists _, _. split; [reflexivity|]. split; [done|]. done. }
    destruct on; cbn [negb].
    2:{ exists sc, wsc, (File IRM_OK old). split; [apply imap_length|]. split; [|split].
        - intros K. unfold dump_call. eapply rtc_transitive; [apply Ha|]. cbv beta. unfold wsc. rewrite imap_imap. reflexivity.
        - apply (in_step_frame k s); [done|apply frame_clear|intros; apply frame_clear].
        - split; [done|]. by apply pairwise_imap. }
    destruct opens; cbn [negb].
    2:{ exists (returned L IRM_FAIL sc), (imap (fun _ w => returned L IRM_FAIL (clear w)) ws), (File IRM_FAIL old).
        split; [apply imap_length|]. split; [|split].
        - intros K. unfold dump_call. eapply rtc_transitive; [apply Ha|]. cbn [bit]. rewrite (imap_ext _ (fun i w => Bcast (Ints [0]) (fun rc =>
              if decide (int_of rc = 0) then dump_blocks L (blocks_of (p_map (clear w))) 0 (S i) (clear w) (idle i (with_x (l_end L (p_x (clear w))) (clear w)))
              else idle i (returned L IRM_FAIL (clear w))))) by done.
          eapply rtc_transitive.
          { apply (go_bcast (loop L) _ _ ws _ (fun i w => idle i (returned L IRM_FAIL (clear w)))). intros i w _. eexists _, _. done. }
          rewrite imap_imap. reflexivity.
        - apply (in_step_frame k s); [done| |]; intros; apply frame_returned, frame_clear.
        - split; [done|]. by apply pairwise_imap. }
    exists (with_x (l_end L (p_x sc)) sc), (imap (fun _ w => with_x (l_end L (p_x (clear w))) (clear w)) ws).
    pose proof (in_step_agrees _ _ _ I) as A. pose proof (is_map _ _ _ I) as G.
    eexists. split; [apply imap_length|]. split; [|split; [|split; [by apply pairwise_imap|]]].
    - intros K. unfold dump_call. eapply rtc_transitive; [apply Ha|]. cbn [bit].
      eapply rtc_transitive.
      { apply (go_bcast (loop L) _ _ ws _ (fun i w => dump_blocks L (blocks_of (p_map sc)) 0 (S i) (clear w) (idle i (with_x (l_end L (p_x (clear w))) (clear w))))).
        intros i w Hw. eexists _, _. split; [reflexivity|]. split; [done|]. cbn [int_of]. rewrite decide_True by done.
        destruct (is_ranges _ _ _ I w) as (_ & _ & _ & _ & E1 & E2); [by eapply elem_of_list_lookup_2|].
        assert (blocks_of (p_map (clear w)) = blocks_of (p_map sc)) as ->; [|done].
        unfold blocks_of, ranges. change (p_map (clear w)) with (p_map w). by rewrite E1, E2. }
      cbv beta.
      pose proof (go_dump sc wsc fails (fun t => K (returned L IRM_FAIL sc) (File IRM_FAIL t)) (fun t => K (with_x (l_end L (p_x sc)) sc) (File IRM_OK t))
        (fun i w => idle i (with_x (l_end L (p_x w)) w)) Hf) as H.
      assert (length wsc = length ws) as Hlc by apply imap_length.
      specialize (H ltac:(rewrite Hlc; change (tasks sc) with (tasks s); by rewrite (agrees_root s ws)) (blocks_of (p_map sc)) O O (Files.Model.opened append (Some old))).
      rewrite Hlc in H. unfold wsc in H at 1 3. rewrite !imap_imap in H. rewrite imap_imap. exact H.
    - apply (in_step_frame k s); [done|done|]. done.
    - cbv zeta. set (r := Files.Model.dump_module _ _ _ _ _ _ _).
      assert (r.2 = IRM_OK) as Hok by (apply Files.Proofs.write_pieces_ok; intros; apply Hf).
      rewrite Hok. f_equal. destruct (Files.Proofs.write_pieces_last _ _ _ _ Hok) as [Hl _].
      unfold r, Files.Model.dump_module. cbn [fst]. erewrite Files.Proofs.last_default, Hl. f_equal.
      rewrite Files.Proofs.dump_pieces_text by lia. unfold Files.Model.dump_items. rewrite Files.Proofs.worker_text_concat. f_equal.
      rewrite map_map. apply map_ext. intros ib.
      assert (block_text (sc :: wsc) ib = block_text (s :: ws) ib) as ->.
      { unfold block_text, wsc. cbn [imap]. f_equal. f_equal. rewrite imap_imap. done. }
      apply block_texts_all. by eapply in_step_alike.
  Qed.

  (** After a failed write the root does not take part in the barrier. *)
  Lemma dump_stuck k s ws append fails old K : in_step k s ws ->
    (Files.Model.dump_module (Z.to_nat 4094) fails append (text_at L (s :: ws)) 5000 (ranges (p_map s)) (Some old)).2 <> IRM_OK ->
    exists f' ks' qs, rtc step (Config (dump_call L true append true fails old s K) (imap idle ws) (empties (length ws)))
      (Config (K (returned L IRM_FAIL (clear s)) (File IRM_FAIL f')) (imap (fun i w => Barrier (ks' i w)) ws) qs).
  Proof.
    intros I Hno. set (sc := clear s). set (wsc := imap (fun _ w => clear w) ws).
    assert (length wsc = length ws) as Hlc by apply imap_length.
    destruct (go_dump_bad sc wsc fails (fun t => K (returned L IRM_FAIL sc) (File IRM_FAIL t)) (fun t => K (with_x (l_end L (p_x sc)) sc) (File IRM_OK t))
        (fun i w => idle i (with_x (l_end L (p_x w)) w))
        ltac:(rewrite Hlc; change (tasks sc) with (tasks s); by rewrite (agrees_root s ws) by (by eapply in_step_agrees))
        (blocks_of (p_map sc)) O O (Files.Model.opened append (Some old))) as (f' & ks' & qs & H).
    { intros Hok. apply Hno. unfold Files.Model.dump_module. cbn [snd]. unfold Files.Model.dump_pieces.
      rewrite <- Hok. do 3 f_equal. apply map_ext. intros ib. unfold sc, wsc. rewrite block_parts_clear. symmetry. apply block_parts_all. by eapply in_step_alike. }
    exists f', (fun i w => ks' i (clear w)), qs. unfold dump_call.
    eapply rtc_transitive; [by apply (go_announce L DumpModule DumpModule)|]. cbn [work]. unfold dump_worker.
    eapply rtc_transitive.
    { apply (go_bcast (loop L) _ _ ws _ (fun i w => Bcast (Ints [0]) (fun rc =>
              if decide (int_of rc = 0) then dump_blocks L (blocks_of (p_map (clear w))) 0 (S i) (clear w) (idle i (with_x (l_end L (p_x (clear w))) (clear w)))
              else idle i (returned L IRM_FAIL (clear w))))).
      intros i w _. eexists _, _. split; [reflexivity|]. done. }
    eapply rtc_transitive.
    { apply (go_bcast (loop L) _ _ ws _ (fun i w => dump_blocks L (blocks_of (p_map sc)) 0 (S i) (clear w) (idle i (with_x (l_end L (p_x (clear w))) (clear w))))).
      intros i w Hw. eexists _, _. split; [reflexivity|]. split; [done|]. cbn [int_of]. rewrite decide_True by done.
      destruct (is_ranges _ _ _ I w) as (_ & _ & _ & _ & E1 & E2); [by eapply elem_of_list_lookup_2|].
      assert (blocks_of (p_map (clear w)) = blocks_of (p_map sc)) as ->; [|done].
      unfold blocks_of, ranges. change (p_map (clear w)) with (p_map w). by rewrite E1, E2. }
    cbv beta. rewrite Hlc in H. unfold wsc in H at 1 2. rewrite !imap_imap in H. exact H.
  Qed.
End dump.
