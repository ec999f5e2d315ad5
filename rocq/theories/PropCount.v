(** C59: what a finished file says about the size of its trees. *)
From Verif Require Import Base WBuf Values Key Obj TreeObj File FileOps Column ColRead TreeWrite TreeSession StreamerDb
  Spec SpecTree SpecRoom SpecBasket SpecDamage SessFacts BasketFacts PartFacts DamageFile BasketFile Sample SampleOpen PropDamage PropBasket.
Import SpecTree.

Section Finished.
Variables (path : bytes) (ts : list table) (es : list (list (nat * event))) (f fo : file).
Hypotheses (F : finished path ts es f) (S : short_path path) (O : open_file (f_disk f) = Ok fo).

(** The record of a tree counts the bytes of the entries of all its columns; the number
    of compressed bytes is never filled in. *)
Theorem C59_numbers_of_a_file :
  Forall2 (fun t k => exists r, key_object (f_disk f) k = Ok (OTree r) /\
      t_entries r = Z.of_nat (longest (columns (tb_setup t))) /\
      t_tot r = total column_bytes (columns (tb_setup t)) /\ t_zip r = 0 /\
      Forall2 (fun c b => right_counts (tb_name t) c (br_core b) /\ exists l, br_leaves b = [l] /\ right_leaf c l)
        (columns (tb_setup t)) (t_branches r))
    ts (d_keys (f_dir fo)).
Proof.
  pose proof (keys_listed path ts es f fo F S O) as K.
  destruct (placed_whole path ts es f fo F S O) as (krs & K1 & K2 & FD & _). rewrite K1 in *.
  clear K1 F S O. induction K2 as [|t kr ts' krs' PL _ IH]; [constructor|]. cbn [map] in K |- *.
  inversion K as [|? ? ? ? (r & R1 & R2 & R3 & R4) K']; subst.
  constructor; [|exact (IH K')]. destruct PL as (P1 & P2 & _).
  pose proof (res_eq _ _ _ R1 P1) as E. apply (f_equal (fun o => match o with OTree y => y | _ => r end)) in E. cbv beta iota in E. subst r.
  exists (snd kr). split; [exact P1|]. split; [exact (proj1 (proj2 P2))|]. split; [exact R2|]. split; [exact R3|].
  eapply Forall2_weaken; [|exact R4]. cbv beta. intros c b (L1 & L2 & _ & (C1 & C2 & C3 & C4 & C5 & C6) & _ & LF). split; [|exact LF].
  unfold right_counts. cbv zeta. rewrite L2, total_id. auto 10.
Qed.

Lemma total_lt {A} (g h : A -> Z) l : l <> [] -> (forall a, g a < h a) -> total g l < total h l.
Proof.
  intros N H. destruct l as [|a l]; [congruence|]. clear N. cbn [total]. pose proof (H a).
  assert (total g l <= total h l) by (clear - H; induction l as [|x l IH]; cbn [total]; [lia|specialize (H x); lia]). lia.
Qed.
Lemma total_concat {A} (g : A -> Z) l : total g (concat l) = total (total g) l.
Proof. induction l as [|a l IH]; [reflexivity|]. cbn [concat total]. now rewrite total_app, IH. Qed.
Lemma string_size_pos s : 0 < string_size s.
Proof. unfold string_size. pose proof (zlen_nonneg s). destruct (_ <? _); lia. Qed.
Lemma basket_above tn c p : total (value_bytes (c_type c)) p < basket_bytes tn c p.
Proof.
  unfold basket_bytes. pose proof (string_size_pos (c_name c)). pose proof (string_size_pos tn). pose proof (zlen_nonneg p).
  destruct (c_type c); lia.
Qed.
Lemma cut_nonempty size vs : forall held, cut size held vs <> [].
Proof. induction vs as [|v vs IH]; intros held; cbn [cut]; [discriminate|]. destruct (_ <=? _); [discriminate|apply IH]. Qed.
Lemma column_above tn c : column_bytes c < total (basket_bytes tn c) (in_baskets c).
Proof.
  unfold column_bytes. assert (E : c_values c = concat (in_baskets c)) by (unfold in_baskets; now rewrite cut_concat).
  rewrite E at 1. rewrite total_concat.
  apply total_lt; [apply cut_nonempty|apply basket_above].
Qed.
Lemma counted_sum {B} (g : B -> Z) (h : column -> Z) cs bs : Forall2 (fun c b => g b = h c) cs bs -> total g bs = total h cs.
Proof. induction 1 as [|c b cs bs E _ IH]; [reflexivity|]. cbn [total]. now rewrite E, IH. Qed.

(** So the numbers of a tree are never the sums of those of its branches. *)
Theorem C59_trees_add_up_refuted :
  Forall2 (fun t k => columns (tb_setup t) <> [] -> exists r, key_object (f_disk f) k = Ok (OTree r) /\
      t_tot r < total (fun b => b_tot (br_core b)) (t_branches r) /\
      t_zip r < total (fun b => b_zip (br_core b)) (t_branches r))
    ts (d_keys (f_dir fo)).
Proof.
  eapply Forall2_weaken; [|exact C59_numbers_of_a_file]. cbv beta. intros t k (r & R1 & _ & R2 & R3 & R4) N. exists r. split; [exact R1|].
  rewrite R2, R3.
  rewrite (counted_sum (fun b => b_tot (br_core b)) (fun c => total (basket_bytes (tb_name t) c) (in_baskets c)) (columns (tb_setup t)))
    by (eapply Forall2_weaken; [|exact R4]; cbv beta; intros c b X; apply X).
  rewrite (counted_sum (fun b => b_zip (br_core b)) (fun c => total (basket_bytes (tb_name t) c) (in_baskets c)) (columns (tb_setup t)))
    by (eapply Forall2_weaken; [|exact R4]; cbv beta; intros c b X; apply X).
  assert (X : total column_bytes (columns (tb_setup t)) < total (fun c => total (basket_bytes (tb_name t) c) (in_baskets c)) (columns (tb_setup t))).
  { apply total_lt; [exact N|apply column_above]. }
  split; [exact X|]. eapply Z.le_lt_trans; [|exact X].
  clear. induction (columns (tb_setup t)) as [|c cs IH]; cbn [total]; [lia|].
  assert (0 <= column_bytes c); [|lia]. unfold column_bytes. induction (c_values c) as [|v vs IHv]; cbn [total]; [lia|]. pose proof (value_bytes_nonneg (c_type c) v). lia.
Qed.
End Finished.

Example sample_counts : finished path0 tables0 heard0 sample_file /\ short_path path0 /\ open_file (f_disk sample_file) = Ok sample_opened /\
  map (fun t => total column_bytes (columns (tb_setup t))) tables0 = [54; 0; 1] /\
  map (fun t => map (fun c => total (basket_bytes (tb_name t) c) (in_baskets c)) (columns (tb_setup t))) tables0 = [[74; 114; 78; 64]; []; [63]] /\
  map (fun t => map longest_entry (columns (tb_setup t))) tables0 = [[4; 26; 4; 2]; []; [1]].
Proof.
  split; [exact sample_finished|]. split; [vm_compute; discriminate|]. split; [exact sample_opens|]. repeat split; vm_compute; reflexivity.
Qed.
