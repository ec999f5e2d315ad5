(** C60: the bytes of a file and what was written to it. *)
From Verif Require Import Base WBuf Values Key Obj TreeObj File FileOps Column ColRead TreeWrite TreeSession StreamerDb
  Spec SpecTree SpecSame SpecDamage SessFacts DamageFile SameFacts SameFile Sample SampleOpen PropFile PropDamage.
Import SpecTree.

(** Callbacks leave no trace, whether writing succeeds or not. *)
Theorem C60_callbacks_leave_no_trace path ts ts' : map content ts = map content ts' ->
  let s := session real_db path (map calls ts) in let s' := session real_db path (map calls ts') in
  fst s = fst s' /\ ((exists es, snd s = Ok es) <-> (exists es, snd s' = Ok es)).
Proof.
  intros E. cbv zeta. destruct (session_agree real_db path _ _ (content_calls _ _ E)) as (A & B). split; [exact A|].
  destruct (snd (session real_db path (map calls ts))) as [a|e| | |], (snd (session real_db path (map calls ts'))) as [a'|e'| | |];
    cbn [shown] in B; try discriminate; split; intros (x & X); try discriminate; eauto.
Qed.

Lemma paths_decided path ts es f path' ts' es' f' : finished path ts es f -> short_path path -> finished path' ts' es' f' -> short_path path' ->
  f_disk f = f_disk f' -> path = path'.
Proof.
  intros F S F' S' E. destruct (C20_close_is_consistent _ _ _ _ F S) as (fo & O & _ & _ & _ & _ & _ & _ & (h & b & k & R & _ & N & _ & D)).
  destruct (C20_close_is_consistent _ _ _ _ F' S') as (fo' & O' & _ & _ & _ & _ & _ & _ & (h' & b' & k' & R' & _ & N' & _ & D')).
  rewrite <- E in O', D'. rewrite O in O'. injection O' as <-. rewrite <- N, <- N'. f_equal.
  destruct R as (w & x & -> & K & _), R' as (w' & x' & -> & K' & _). destruct D as (a & c & D & L), D' as (a' & c' & D' & L').
  rewrite <- !app_assoc in D, D'. specialize (K a (x ++ b ++ c) 0 []). specialize (K' a' (x' ++ b' ++ c') 0 []).
  rewrite <- D, L in K. rewrite <- D', L' in K'. rewrite K in K'. now injection K'.
Qed.

(** Two finished files have the same bytes exactly if they were written to the same path
    and got the same tables: nothing else goes into a file, and nothing of the tables,
    hidden ones included, is left out. *)
Theorem C60_bytes_and_tables path ts es f path' ts' es' f' :
  finished path ts es f -> short_path path -> finished path' ts' es' f' -> short_path path' ->
  (f_disk f = f_disk f' <-> path = path' /\ map content ts = map content ts').
Proof.
  intros F S F' S'. split.
  - intros E. split; [exact (paths_decided _ _ _ _ _ _ _ _ F S F' S' E)|].
    destruct (C20_close_is_consistent _ _ _ _ F S) as (fo & O & _).
    assert (O' : open_file (f_disk f') = Ok fo) by now rewrite <- E.
    destruct (file_kept _ _ _ _ _ F S O) as (recs & P & SG & K). destruct (file_kept _ _ _ _ _ F' S' O') as (recs' & P' & SG' & K').
    destruct (placed_whole _ _ _ _ _ F S O) as (krs & K1 & K2 & _). destruct (placed_whole _ _ _ _ _ F' S' O') as (krs' & K1' & K2' & _).
    rewrite <- E in SG', K'. rewrite K1 in K, K1'. rewrite K1 in K'. clear - P P' SG SG' K K' K1' K2 K2' E.
    revert ts' krs' K1' K' K2'. induction K2 as [|t kr ts krs PL _ IH]; intros ts' krs' K1' K' K2'; cbn [map] in *.
    + inversion K'; subst. reflexivity.
    + inversion K' as [|t' ? ts2 ? I' K'' EQ]; subst. inversion K as [|? ? ? ? I K2b]; subst.
      inversion K2' as [|? kr' ? krs2 PL' K2'' EQ2]; subst. cbn [map] in K1' |- *.
      pose proof (f_equal (hd (fst kr)) K1') as EK. pose proof (f_equal (@tl key) K1') as EK2. cbn [hd tl] in EK, EK2.
      f_equal; [|exact (IH K2b ts2 krs2 EK2 K'' K2'')].
      destruct PL as (PO & (PN & _) & _), PL' as (PO' & (PN' & _) & _). rewrite <- E, <- EK in PO'.
      destruct I as (r & ws & R1 & R2 & R3), I' as (r' & ws' & R1' & R2' & R3').
      pose proof (res_eq _ _ _ R1 R1') as Q1. pose proof (res_eq _ _ _ PO PO') as Q2.
      apply (f_equal (fun o => match o with OTree y => y | _ => r end)) in Q1. apply (f_equal (fun o => match o with OTree y => y | _ => r end)) in Q2.
      cbv beta iota in Q1, Q2. subst r'. unfold content.
      assert (EN : tb_name t = tb_name t') by (rewrite <- PN, <- PN', Q2; reflexivity).
      rewrite <- EN in R3'. f_equal; [exact EN|]. apply (columns_decided (f_disk f) path path' recs recs' (tb_name t) _ ws P P' SG SG' R3 _ ws' R3'). congruence.
  - intros (<- & E). destruct F as (_ & _ & _ & X & _), F' as (_ & _ & _ & X' & _).
    destruct (C60_callbacks_leave_no_trace path ts ts' E) as (A & _). rewrite X, X' in A. cbn [fst] in A. now rewrite A.
Qed.

(** The sample, with two tables of one name, without its callback and with others. *)
Definition tables1 : list table :=
  [Table (bs "events")
     [AddCallback; AddColumn (Column (bs "x") (TPrim I32) [VInt 1; VInt (-2); VInt 3]);
      AddColumn (Column (bs "v") (TVec (TPrim F64)) [VList [VInt 7; VInt 9]; VList []]);
      AddColumn (Column (bs "s") TString [VStr (bs "abc")]);
      AddColumn (Column (bs "a") (TArr 2 (TPrim U8)) [VList [VInt 5; VInt 6]]); AddCallback];
   Table (bs "t2") [AddCallback]; Table (bs "events") [AddColumn (Column (bs "y") (TPrim PBool) [VInt 1])]].
Lemma same_finished path ts es f ts' : finished path ts es f -> map content ts = map content ts' -> exists es', finished path ts' es' f.
Proof.
  intros (F1 & F2 & F3 & F4 & F5) E. destruct (C60_callbacks_leave_no_trace path ts ts' E) as (A & B). rewrite F4 in A, B. cbn [fst snd] in A, B.
  destruct (proj1 B (ex_intro _ _ eq_refl)) as (es' & E'). exists es'. split; [exact F1|]. split; [|split; [|split; [|exact F5]]].
  - clear - F2 E. revert ts' E. induction F2 as [|t ts T _ IH]; intros [|t' ts'] E; try discriminate; constructor.
    + cbn [map] in E. unfold content in E. injection E as E1 E2 _. unfold table_ok in *. rewrite <- E1, <- E2. exact T.
    + apply IH. cbn [map] in E. now injection E.
  - replace (map tb_name ts') with (map tb_name ts); [exact F3|].
    apply (f_equal (map fst)) in E. rewrite !map_map in E. exact E.
  - rewrite (surjective_pairing (session _ _ _)), <- A, E'. reflexivity.
Qed.
Example sample_same : exists es, finished path0 tables0 heard0 sample_file /\ finished path0 tables1 es sample_file /\ short_path path0 /\
  map content tables0 = map content tables1 /\ map heard tables0 <> map heard tables1.
Proof.
  destruct (same_finished path0 tables0 heard0 sample_file tables1 sample_finished eq_refl) as (es & F).
  exists es. split; [exact sample_finished|]. split; [exact F|].
  split; [vm_compute; discriminate|]. split; [reflexivity|]. intros H. apply (f_equal (@concat _)) in H. apply (f_equal (@length _)) in H. vm_compute in H. discriminate H.
Qed.
