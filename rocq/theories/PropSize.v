(** C61: how large a file is. *)
From Verif Require Import Base WBuf Values Key Obj TreeObj File FileOps Column ColRead LazyFacts TreeWrite TreeSession StreamerDb
  CodecFacts FileLay FileClose FileOpen Spec SpecTree SpecRoom SpecBasket SpecDamage SpecSize SessFacts BasketFacts PartFacts DamageFile BasketFile SizeFacts
  Sample SampleOpen PropTree PropRoom PropDamage PropBasket PropCount.
Import SpecTree.

Section Finished.
Variables (path : bytes) (ts : list table) (es : list (list (nat * event))) (f fo : file).
Hypotheses (F : finished path ts es f) (S : short_path path) (O : open_file (f_disk f) = Ok fo).

Lemma size_in_parts :
  zlen (f_disk f) = first_record path + d_nbkeys (f_dir fo) + fh_nbinfo (f_hdr fo) + fh_nbfree (f_hdr fo) +
    total k_nbytes (d_keys (f_dir fo)) + total data_bytes ts.
Proof.
  pose proof (C58_baskets_of_a_file path ts es f fo F S O) as B.
  destruct (C53_every_byte_has_one_place path ts es f fo F S O) as (krs & K1 & K2 & H1 & H0).
  destruct (placed_whole path ts es f fo F S O) as (krs' & K1' & K2' & _ & _ & FF & _).
  assert (EK : krs' = krs).
  { rewrite K1 in K1'. clear - K2 K2' K1'. revert krs' K2' K1'. induction K2 as [|t kr ts' krs (A1 & _) _ IH]; intros krs' F2 M; inversion F2 as [|? kr' ? krs'' (B1 & _) F2']; subst; [reflexivity|].
    cbn [map] in M. injection M as M1 M2. f_equal; [|apply IH; [exact F2'|exact M2]].
    destruct kr as [k r], kr' as [k' r']. cbn [fst snd] in *. subst k'. rewrite A1 in B1. now injection B1 as ->. }
  subst krs'. clear K1'.
  assert (N : total snd (frame_parts path fo ++ flat_map (fun kr => table_parts (fst kr) (snd kr)) krs) = zlen (f_disk f)).
  { apply tiled; [apply zlen_nonneg| |exact H1|exact H0]. apply Forall_app. split; [exact FF|].
    apply Forall_forall. intros [s n] I. apply in_flat_map in I as (kr & IK & I).
    destruct (F2_in_r _ _ _ K2' kr IK) as (t & _ & PL). destruct PL as (_ & _ & _ & P4 & _ & P6).
    unfold table_parts in I. destruct I as [E|I].
    - injection E as <- <-. cbn [snd]. lia.
    - apply in_flat_map in I as (b & IB & I). destruct (P6 b IB) as (_ & _ & _ & PL). destruct (PL s n I) as (_ & M). cbn [snd]. lia. }
  rewrite <- N, total_app, total_flat. unfold frame_parts at 1. cbn [total snd].
  assert (E : total (fun kr => total snd (table_parts (fst kr) (snd kr))) krs = total k_nbytes (d_keys (f_dir fo)) + total data_bytes ts);
    [|rewrite E; lia].
  rewrite K1 in B |- *. clear - B K2. induction K2 as [|t kr ts' krs (A1 & _) _ IH]; [reflexivity|].
  cbn [map] in B. inversion B as [|? ? ? ? (r & R1 & _ & R2) B']; subst. specialize (IH B'). cbn [map total]. rewrite IH.
  pose proof (res_eq _ _ _ R1 A1) as E. apply (f_equal (fun o => match o with OTree y => y | _ => r end)) in E. cbv beta iota in E. subst r.
  unfold table_parts. cbn [total snd]. rewrite total_flat.
  assert (G : total (fun b => total snd (own_baskets b)) (t_branches (snd kr)) = data_bytes t); [|rewrite G; lia].
  unfold data_bytes. clear - R2. induction R2 as [|c b cs bs (_ & X2 & X3 & _) _ IH]; [reflexivity|]. cbn [total]. rewrite IH. f_equal.
  unfold own_baskets. rewrite X2. clear - X3. revert X3. generalize (in_baskets c). generalize (b_seek (br_core b)).
  induction l as [|s l IH]; intros [|p ps] L; try discriminate L; [reflexivity|]. cbn [map combine total snd]. now rewrite (IH ps) by (injection L as L; exact L).
Qed.
Lemma frame_sizes : d_nbkeys (f_dir fo) = 42 + string_size path + total tkey_bytes ts /\
  fh_nbfree (f_hdr fo) = 43 + string_size path /\
  total k_nbytes (d_keys (f_dir fo)) = total tkey_bytes ts + total k_objlen (d_keys (f_dir fo)).
Proof.
  pose proof F as ((U & _) & _).
  destruct (finished_parted _ _ _ _ F) as (P & T & NB & kcs & sis & recs & log & sis' & sbuf & CS & PT). specialize (NB S).
  destruct (w_frame path ts es f fo kcs sis recs log sis' sbuf P NB CS O) as (EF & _).
  assert (SP : string_size path = tstring_sizeof path) by (apply string_size_ok; apply (proj1 (text_str_ok _) U)).
  assert (KS : Forall2 (fun t kc => exists cycle e buf, fst kc = mk_key (tb_name t) [] (bs "TTree") cycle e buf /\ key_good (fst kc)) ts kcs).
  { pose proof (pt_st _ _ _ _ _ PT) as X. clear - X. revert kcs X. induction ts as [|t l IH]; intros [|kc kcs] X; inversion X as [|? ? ? ? H X']; subst; constructor; [|exact (IH _ X')].
    destruct H as (tot & H & _). destruct H as (cycle & e & buf & m & H1 & H2 & _). exists cycle, e, buf. split; [exact H1|exact H2]. }
  assert (KL : forall t, In t ts -> key_len_for (tb_name t) [] (bs "TTree") false = tkey_bytes t).
  { intros t IT. rewrite Forall_forall in T. destruct (T t IT) as (TX & _). unfold tkey_bytes. rewrite string_size_ok by apply (proj1 (text_str_ok _) TX).
    unfold key_len_for. change (beqb (bs "TTree") (bs "TBasket")) with false. change (tstring_sizeof (bs "TTree")) with 6. change (tstring_sizeof []) with 1. lia. }
  rewrite EF. cbn [f_dir f_hdr d_keys d_set_keys]. split; [|split].
  - change (k_nbytes (kkey path (map fst kcs) (E0 path + rsize recs)) = 42 + string_size path + total tkey_bytes ts).
    unfold kkey, mk_key. cbn [k_nbytes]. rewrite keys_buf_len. unfold key_len_for.
    change (beqb (bs "TDirectory") (bs "TBasket")) with false. change (tstring_sizeof (bs "TDirectory")) with 11. change (tstring_sizeof []) with 1.
    assert (E : zlen (concat (map khdr (map fst kcs))) = total tkey_bytes ts); [|lia].
    clear - KS KL. induction KS as [|t kc l kcs (c & e & buf & H1 & H2) _ IH]; [reflexivity|]. cbn [map concat total]. rewrite zlen_app.
    rewrite (proj1 (key_good_hdr _ H2)), H1. cbn [mk_key k_keylen]. rewrite (KL t (or_introl eq_refl)). f_equal. apply IH. intros u IU. apply KL. now right.
  - change (k_nbytes (fkey path (E0 path + rsize recs + k_nbytes (kkey path (map fst kcs) (E0 path + rsize recs)) +
      k_nbytes (skey sbuf (E0 path + rsize recs + k_nbytes (kkey path (map fst kcs) (E0 path + rsize recs)))))) = 43 + string_size path).
    destruct (w_sizes path ts es f kcs sis recs log sis' sbuf P CS) as (Z0 & Z1 & Z2 & Z3 & _).
    set (e2 := E0 path + rsize recs + k_nbytes _ + k_nbytes _) in *.
    pose proof (path_keylen_eq path) as PK. pose proof S as S'. unfold short_path in S'.
    assert (B : 0 <= string_size path <= 500) by (unfold string_size; pose proof (zlen_nonneg path); destruct (_ <? _); lia).
    assert (N : k_nbytes (fkey path e2) = path_keylen path + zlen (seg_buf (e2 + (path_keylen path + 10)))) by reflexivity.
    rewrite N, (proj1 (zlen_seg_buf (e2 + (path_keylen path + 10)) ltac:(red; lia))). lia.
  - clear - KS KL. induction KS as [|t kc l kcs (c & e & buf & H1 & H2) _ IH]; [reflexivity|]. cbn [map total].
    rewrite IH by (intros u IU; apply KL; now right). rewrite H1. unfold key_listed, fix_class. pose proof (KL t (or_introl eq_refl)). 
    change (beqb (k_class (key_seen (mk_key (tb_name t) [] (bs "TTree") c e buf))) (bs "TDirectory")) with false. cbn [key_seen mk_key k_nbytes k_objlen]. lia.
Qed.

(** A file is its beginning, the list of keys, the free list, the class descriptions (the
    header states their size), for each tree its key and its object (whose size the key
    states), and the baskets; nothing else, not even a gap. *)
Theorem C61_size_of_a_file :
  zlen (f_disk f) = empty_bytes path + fh_nbinfo (f_hdr fo) + total (fun t => 2 * tkey_bytes t + data_bytes t) ts +
    total k_objlen (d_keys (f_dir fo)).
Proof.
  rewrite size_in_parts. destruct frame_sizes as (-> & -> & ->). unfold empty_bytes.
  assert (E : total (fun t => 2 * tkey_bytes t + data_bytes t) ts = 2 * total tkey_bytes ts + total data_bytes ts).
  { clear. induction ts as [|t l IH]; [reflexivity|]. cbn [total]. lia. }
  rewrite E. lia.
Qed.
End Finished.

(** In terms of what was written: no less than the entries, and no more than [room]
    (SpecRoom.v) says. *)
Theorem C61_no_larger_than path ts es f : finished path ts es f -> zlen (f_disk f) <= room path ts.
Proof.
  intros F. destruct (Z.le_gt_cases (room path ts) 2000000000) as [R|R]; [|destruct F as (_ & _ & _ & _ & L); lia].
  pose proof F as (U & T & N & H & _).
  pose proof (proj1 (C58_what_can_be_written path ts U T R) (ex_intro _ f (ex_intro _ es H))) as W.
  assert (W' : Forall writable ts).
  { apply Forall_forall. intros t IT. destruct (W t IT) as (W1 & W2). split; [exact W1|]. apply Forall_forall. intros c IC. destruct (W2 c IC). auto. }
  destruct (C45_what_fits_is_written path ts U T W' N R) as (es' & f' & (_ & _ & _ & H' & _) & L).
  rewrite H in H'. injection H' as <- _. exact L.
Qed.

Theorem C61_no_smaller_than path ts es f : finished path ts es f -> short_path path ->
  total entry_bytes ts <= total data_bytes ts /\ total data_bytes ts < zlen (f_disk f).
Proof.
  intros F S. split.
  - assert (LE : forall (A : Type) (g h : A -> Z) l, (forall a, g a <= h a) -> total g l <= total h l).
    { intros A g h l H. induction l as [|a l IH]; cbn [total]; [lia|specialize (H a); lia]. }
    apply LE. intros t. apply LE. intros c. unfold column_bytes.
    destruct (C58_how_full c) as (E & _). rewrite <- E at 1. rewrite total_concat. apply LE. intros p.
    pose proof (basket_above (tb_name t) c p). lia.
  - destruct (C13_file_gives_back_its_tables _ _ _ _ F S) as (fo & O & _).
    rewrite (size_in_parts path ts es f fo F S O).
    destruct (placed_whole path ts es f fo F S O) as (krs & K1 & K2 & _ & _ & FF & _). rewrite K1.
    unfold frame_parts in FF. inversion FF as [|? ? _ F1]. inversion F1 as [|? ? N1 F2]. inversion F2 as [|? ? N2 F3]. inversion F3 as [|? ? N3 _]. cbn [snd] in *.
    assert (P : 0 < first_record path) by (unfold first_record, directory_at; pose proof (string_size_pos path); lia).
    assert (Q : 0 <= total k_nbytes (map fst krs)).
    { clear - K2. induction K2 as [|t kr ts' krs (_ & _ & _ & P4 & _) _ IH]; cbn [map total]; lia. }
    lia.
Qed.

(** The sample meets the hypotheses.  Its baskets take a few hundred bytes, and [room]
    promises less than 95000 for the whole. *)
Example sample_size : finished path0 tables0 heard0 sample_file /\ short_path path0 /\ open_file (f_disk sample_file) = Ok sample_opened /\
  empty_bytes path0 = 307 /\ map tkey_bytes tables0 = [40; 36; 40] /\ map entry_bytes tables0 = [54; 0; 1] /\ map data_bytes tables0 = [330; 0; 63].
Proof.
  split; [exact sample_finished|]. split; [vm_compute; discriminate|]. split; [exact sample_opens|].
  repeat split; vm_compute; reflexivity.
Qed.
