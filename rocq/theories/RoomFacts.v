(** From the sizes of the specification to those of the proofs. *)
From Verif Require Import Base Bytes Values Key Header FileLay FileClose Column ColOps TreeOps ColFwd TreeFwd WLe TreeSession SessFwd RoomFwd
  Spec CodecFacts SpecTree SessFacts SpecRoom SlotFacts.

Lemma enc_prim_len p v : wt (TPrim p) v -> zlen (enc (TPrim p) v) = Z.of_nat (scalar_bytes p).
Proof. intros H. rewrite (enc_fixed (TPrim p) (Z.of_nat (scalar_bytes p))); [reflexivity|destruct p; reflexivity|exact H]. Qed.
Lemma enc_prims_len p l : Forall (wt (TPrim p)) l -> zlen (flat_map (enc (TPrim p)) l) = Z.of_nat (scalar_bytes p) * zlen l.
Proof.
  induction 1 as [|v l H _ IH]; [cbn [flat_map]; rewrite (@zlen_nil Z), (@zlen_nil val); lia|].
  cbn [flat_map]. rewrite zlen_app, IH, enc_prim_len, zlen_cons by exact H. lia.
Qed.

Lemma value_bytes_ok t v : column_type t -> has_type t v -> zlen (ent t v) = value_bytes t v.
Proof.
  intros C H. pose proof (has_type_wt _ _ H) as W. destruct H as [p z H|s H|t l HL HF|n t l HL HF].
  - apply enc_prim_len. exact W.
  - cbn [ent value_bytes enc]. apply str_bytes_len.
  - destruct t as [p| | |]; cbn [column_type] in C; try contradiction. unfold ent.
    change (enc (TVec (TPrim p)) (VList l)) with (be 4 (zlen l) ++ flat_map (enc (TPrim p)) l). cbn [value_bytes wt] in *.
    rewrite !zlen_app, !zlen_be, enc_prims_len by apply W. lia.
  - destruct t as [p| | |]; cbn [column_type] in C; try contradiction. unfold ent.
    change (enc (TArr n (TPrim p)) (VList l)) with (flat_map (enc (TPrim p)) l). cbn [value_bytes wt] in *.
    rewrite enc_prims_len by apply W. rewrite <- HL, zlen_def. lia.
Qed.

Lemma total_sumz {A} (g : A -> Z) l : total g l = sumz g l.
Proof. unfold sumz. induction l as [|a l IH]; [reflexivity|]. cbn [total map fold_right]. now rewrite IH. Qed.
Lemma sumz_le {A} (g h : A -> Z) l : (forall a, In a l -> g a <= h a) -> sumz g l <= sumz h l.
Proof.
  unfold sumz. induction l as [|a l IH]; intros H; [reflexivity|]. cbn [map fold_right].
  pose proof (H a (or_introl eq_refl)). pose proof (IH (fun b Hb => H b (or_intror Hb))). lia.
Qed.
Lemma sumz_add {A} (g h : A -> Z) l : sumz (fun a => g a + h a) l = sumz g l + sumz h l.
Proof. unfold sumz. induction l as [|a l IH]; [reflexivity|]. cbn [map fold_right]. lia. Qed.

Lemma column_bytes_ok t vs : column_type t -> Forall (has_type t) vs -> zlen (ents t vs) = total (value_bytes t) vs.
Proof.
  intros C H. unfold ents. induction H as [|v vs Hv _ IH]; [reflexivity|]. cbn [flat_map total].
  rewrite zlen_app, IH, value_bytes_ok by assumption. reflexivity.
Qed.
Lemma somes_map {A} (l : list A) : somes (map Some l) = l.
Proof. induction l as [|a l IH]; [reflexivity|]. cbn. now rewrite IH. Qed.

Definition spec_of (c : column) : cspec := mkCS (c_name c) (c_type c) (map Some (c_values c)).
Lemma spec_data tn c : column_ok tn c -> zlen (ents (cs_ty (spec_of c)) (somes (cs_it (spec_of c)))) = column_bytes c.
Proof. intros (H1 & _ & _ & H4). cbn [spec_of cs_ty cs_it]. rewrite somes_map. now apply column_bytes_ok. Qed.

Lemma cut_same g h vs : forall held, Forall (fun v => g v = h v) (held ++ vs) -> cut g held vs = cut h held vs.
Proof.
  induction vs as [|v vs IH]; intros held F; cbn [cut]; [reflexivity|].
  assert (X : forall l, Forall (fun v => g v = h v) l -> total g l = total h l).
  { induction 1 as [|a l E _ I]; [reflexivity|]. cbn [total]. now rewrite E, I. }
  assert (F2 : Forall (fun v => g v = h v) ((held ++ [v]) ++ vs)) by (rewrite <- app_assoc; exact F).
  pose proof F2 as F3. apply Forall_app in F3 as [F3 F4]. rewrite (X _ F3). apply Forall_app in F3 as [_ F3]. inversion F3 as [|? ? E0 _]; subst.
  rewrite E0, (IH [] F4), (IH _ F2). reflexivity.
Qed.
Lemma cut_few g vs : (forall v, 0 <= g v) -> forall held, 16384 * (zlen (cut g held vs) - 1) <= total g held + total g vs.
Proof.
  intros G. assert (T : forall l, 0 <= total g l) by (induction l as [|a l IH]; cbn [total]; [lia|specialize (G a); lia]).
  assert (A : forall a b, total g (a ++ b) = total g a + total g b) by (induction a as [|x a IH]; intros b; cbn [total app]; [|rewrite IH]; lia).
  induction vs as [|v vs IH]; intros held; cbn [cut total]; [rewrite zlen_cons, (@zlen_nil (list val)); specialize (T held); lia|].
  destruct (Z.leb_spec 32768 (total g (held ++ [v]) + g v)) as [L|L].
  - rewrite zlen_cons. rewrite A in L. cbn [total] in L. specialize (IH []). cbn [total] in IH. specialize (T held). specialize (G v). lia.
  - specialize (IH (held ++ [v])). rewrite A in IH. cbn [total] in IH. lia.
Qed.
Lemma few_baskets c : column_bytes c <= 16384 * 32766 -> zlen (in_baskets c) <= 32767.
Proof.
  intros B. assert (G : forall v, 0 <= value_bytes (c_type c) v).
  { intros v. destruct (c_type c) as [p| |[p| | |]|n [p| | |]]; cbn [value_bytes]; try lia; destruct v; try lia.
    - unfold string_size. pose proof (zlen_nonneg s). destruct (_ <? _); lia.
    - pose proof (zlen_nonneg l). lia. }
  pose proof (cut_few _ (c_values c) G []) as H. cbn [total] in H. fold (in_baskets c) in H. unfold column_bytes in B. lia.
Qed.
Lemma cut_in g vs : forall held v p, In p (cut g held vs) -> In v p -> In v held \/ In v vs.
Proof.
  induction vs as [|x vs IH]; intros held v p I1 I2; cbn [cut] in I1; [destruct I1 as [<-|[]]; auto|].
  destruct (32768 <=? _).
  - destruct I1 as [<-|I1]; [apply in_app_or in I2 as [I2|[->|[]]]; cbn; auto|]. destruct (IH _ _ _ I1 I2) as [[]|X]; cbn; auto.
  - destruct (IH _ _ _ I1 I2) as [X|X]; [apply in_app_or in X as [X|[->|[]]]|]; cbn; auto.
Qed.
Lemma in_baskets_in c p v : In p (in_baskets c) -> In v p -> In v (c_values c).
Proof. intros I1 I2. destruct (cut_in _ _ _ _ _ I1 I2) as [[]|X]; exact X. Qed.

Lemma spec_room tn c : column_ok tn c -> all_positions_fit c -> zlen (in_baskets c) <= 32767 -> sroom (spec_of c).
Proof.
  intros (H1 & _ & _ & H4) S B.
  assert (EQ : Forall (fun v => esz (c_type c) v = value_bytes (c_type c) v) (c_values c)).
  { eapply Forall_impl; [|exact H4]. intros v Hv. apply value_bytes_ok; assumption. }
  assert (EC : cut (esz (c_type c)) [] (c_values c) = in_baskets c) by (apply cut_same; exact EQ).
  unfold sroom, roomy. cbn [spec_of cs_ty cs_it]. rewrite somes_map, EC. split; [|exact B].
  intros V. unfold all_positions_fit in S.
  assert (S' : Forall (fun p => positions_fit 1000 0 0 (map (value_bytes (c_type c)) p)) (in_baskets c)) by (destruct (c_type c); try discriminate V; exact S).
  rewrite Forall_forall in *. intros p Hp. apply slots_positions. rewrite (map_ext_in _ (value_bytes (c_type c))); [exact (S' p Hp)|].
  intros v Hv. apply EQ. exact (in_baskets_in _ _ _ Hp Hv).
Qed.

(** [steady] is enough. *)
Lemma short_fit sizes : Forall (fun n => n <= 1000) sizes -> forall S l k, 1000 <= S -> 0 <= l -> positions_fit S l k sizes.
Proof.
  induction 1 as [|n r H _ IH]; intros S l k HS HL; cbn [positions_fit]; [exact I|]. cbv zeta.
  destruct (S + l <=? k + 1); (split; [left; lia|apply IH; [lia|destruct (n =? _); lia]]).
Qed.
Lemma total_least g k l : Forall (fun v : val => k <= g v) l -> k * zlen l <= total g l.
Proof. induction 1 as [|v l H _ IH]; [rewrite (@zlen_nil val); cbn [total]; lia|]. rewrite zlen_cons. cbn [total]. lia. Qed.
Lemma cut_short g k vs : 33 <= k -> Forall (fun v => k <= g v) vs -> forall held, Forall (fun v => k <= g v) held -> total g held < 32768 ->
  Forall (fun p => zlen p <= 1000) (cut g held vs).
Proof.
  intros K. induction 1 as [|v vs Hv _ IH]; intros held HH HT; cbn [cut].
  - constructor; [|constructor]. pose proof (total_least g k held HH). nia.
  - assert (HH' : Forall (fun v => k <= g v) (held ++ [v])) by (apply Forall_app; auto).
    destruct (Z.leb_spec 32768 (total g (held ++ [v]) + g v)) as [L|L].
    + constructor; [|apply IH; [constructor|cbn [total]; lia]]. rewrite zlen_app, zlen_cons, (@zlen_nil val).
      pose proof (total_least g k held HH). nia.
    + apply IH; [exact HH'|]. lia.
Qed.
Lemma in_baskets_len c p : In p (in_baskets c) -> zlen p <= zlen (c_values c).
Proof.
  assert (X : forall g vs held p, In p (cut g held vs) -> zlen p <= zlen held + zlen vs).
  { clear. intros g. induction vs as [|v vs IH]; intros held p H; cbn [cut] in H.
    - destruct H as [<-|[]]. rewrite (@zlen_nil val). lia.
    - rewrite zlen_cons. destruct (_ <=? _).
      + destruct H as [<-|H]; [rewrite zlen_app, zlen_cons, (@zlen_nil val); pose proof (zlen_nonneg vs); lia|].
        apply IH in H. rewrite (@zlen_nil val) in H. pose proof (zlen_nonneg held). lia.
      + apply IH in H. rewrite zlen_app, zlen_cons, (@zlen_nil val) in H. lia. }
  intros H. apply X in H. rewrite (@zlen_nil val) in H. lia.
Qed.
Lemma steady_fits c : steady c -> all_positions_fit c.
Proof.
  unfold steady, all_positions_fit. intros H.
  assert (X : Forall (fun v => value_bytes (c_type c) v <= 1000) (c_values c) \/ zlen (c_values c) <= 1000 \/
              Forall (fun v => 33 <= value_bytes (c_type c) v) (c_values c) ->
              Forall (fun p => positions_fit 1000 0 0 (map (value_bytes (c_type c)) p)) (in_baskets c)).
  { clear H. intros [H|[H|H]]; apply Forall_forall; intros p Hp.
    - apply short_fit; [|lia|lia]. rewrite Forall_forall in *. intros n Hn. apply in_map_iff in Hn as (v & <- & Hv). apply H. exact (in_baskets_in _ _ _ Hp Hv).
    - apply few_fit; [|lia|lia]. rewrite zlen_map. pose proof (in_baskets_len _ _ Hp). lia.
    - apply few_fit; [|lia|lia]. rewrite zlen_map.
      pose proof (cut_short _ 33 _ ltac:(lia) H [] ltac:(constructor) ltac:(reflexivity)) as Y. rewrite Forall_forall in Y. specialize (Y p Hp). lia. }
  destruct (c_type c); auto.
Qed.

Lemma tstring_le s : text s -> tstring_sizeof s <= 5 + zlen s.
Proof. intros H. apply text_str_ok in H. pose proof (tstring_bound s H). lia. Qed.

Lemma spec_cost tn c : text tn -> column_ok tn c ->
  scost tn (spec_of c) + leaf_cost (c_name c) + branch_cost (c_name c) (nbaskets (spec_of c)) <= column_room tn c.
Proof.
  intros T K. unfold scost, nbaskets, cost. rewrite (spec_data tn) by exact K.
  pose proof K as (_ & TN & _). cbn [spec_of cs_ty cs_it cs_name]. rewrite somes_map.
  unfold column_room, baskets, leaf_cost, branch_cost, bkl, key_len_for.
  pose proof (tstring_le _ T). pose proof (tstring_le _ TN). change (tstring_sizeof (bs "TBasket")) with 8. change (beqb (bs "TBasket") (bs "TBasket")) with true. cbv iota.
  assert (0 <= column_bytes c / 16384) by (apply Z.div_pos; [rewrite <- (spec_data tn) by exact K; apply zlen_nonneg|lia]).
  pose proof (zlen_nonneg (c_name c)). pose proof (zlen_nonneg tn). nia.
Qed.

Lemma table_cost t : table_ok t ->
  prog_cost (calls t) + key_len_for (tp_name (calls t)) [] (bs "TTree") false <= table_room t.
Proof.
  intros (T & _ & F). unfold prog_cost, one_cost, data_cost, tree_cost, table_room. rewrite cols_of_calls. fold spec_of.
  change (fun c => mkCS (c_name c) (c_type c) (map Some (c_values c))) with spec_of. rewrite !sumz_map, total_sumz.
  cbn [calls tp_name]. unfold key_len_for. change (tstring_sizeof (bs "TTree")) with 6. change (tstring_sizeof []) with 1.
  change (beqb (bs "TTree") (bs "TBasket")) with false. cbv iota. pose proof (tstring_le _ T).
  assert (sumz (fun c => scost (tb_name t) (spec_of c) + leaf_cost (c_name c) + branch_cost (c_name c) (nbaskets (spec_of c))) (columns (tb_setup t))
    <= sumz (column_room (tb_name t)) (columns (tb_setup t))) as X.
  { apply sumz_le. intros c Hc. rewrite Forall_forall in F. now apply spec_cost; auto. }
  rewrite !sumz_add in X. cbn [spec_of cs_name]. pose proof (zlen_nonneg (tb_name t)). lia.
Qed.

Lemma table_room_ok t : table_ok t -> writable t -> table_room t <= 2000000000 -> prog_room (calls t).
Proof.
  intros (T & _ & F) (N & W) R. unfold prog_room. rewrite cols_of_calls. split; [|split].
  - apply Forall_map. rewrite Forall_forall in *. intros c Hc. destruct (W c Hc). eapply spec_room; eauto.
  - cbn [calls tp_name]. destruct (existsb (Z.eqb 47) (tb_name t)) eqn:E; [|reflexivity].
    apply existsb_exists in E as (x & Hx & Ex). apply Z.eqb_eq in Ex. subst x. contradiction.
  - rewrite zlen_map. unfold table_room in R. rewrite total_sumz in R. pose proof (zlen_nonneg (tb_name t)).
    assert (X : 1200 * zlen (columns (tb_setup t)) <= sumz (column_room (tb_name t)) (columns (tb_setup t))); [|lia].
    rewrite <- sumz_const. apply sumz_le. intros c Hc. rewrite Forall_forall in F. specialize (F c Hc).
    unfold column_room, baskets. assert (0 <= column_bytes c) by (rewrite <- (spec_data (tb_name t)) by exact F; apply zlen_nonneg).
    assert (0 <= column_bytes c / 16384) by (apply Z.div_pos; lia).
    pose proof (zlen_nonneg (c_name c)). pose proof (zlen_nonneg (c_values c)). nia.
Qed.

Lemma fits_any path ts : user_path path -> Forall table_ok ts -> Forall writable ts -> room path ts <= 2000000000 ->
  exists es f, session real_db path (map calls ts) = (f, Ok es) /\ zlen (f_disk f) <= room path ts.
Proof.
  intros U T W R. pose proof (user_path_ok path U) as (P & _). destruct U as (UT & UL).
  assert (TR : Forall (fun t => 0 <= table_room t) ts).
  { rewrite Forall_forall in *. intros t Ht. pose proof (table_cost t (T t Ht)). pose proof (table_tprog t (T t Ht)) as TP.
    pose proof (prog_cost_nonneg _ TP). pose proof (key_len_pos _ _ _ (proj1 TP)). lia. }
  assert (ROOM : E0 path + sumz prog_cost (map calls ts) + close_cost path (map calls ts) <= room path ts).
  { unfold close_cost, room. rewrite total_sumz.
    assert (X : sumz (fun t => prog_cost (calls t) + key_len_for (tp_name (calls t)) [] (bs "TTree") false) ts <= sumz table_room ts).
    { apply sumz_le. intros t Ht. rewrite Forall_forall in T. apply table_cost. auto. }
    rewrite sumz_add in X. rewrite !sumz_map. unfold E0, nbname. rewrite path_keylen_eq. change (tstring_sizeof []) with 1.
    pose proof (tstring_le _ UT). unfold key_len_for at 1. change (tstring_sizeof []) with 1. change (tstring_sizeof (bs "TDirectory")) with 11.
    change (beqb (bs "TDirectory") (bs "TBasket")) with false. cbv iota.
    assert (si_keylen <= 200) by (vm_compute; discriminate). unfold sinfo_room. lia. }
  assert (TP : Forall tprog_ok (map calls ts)) by (apply Forall_map; eapply Forall_impl; [|exact T]; intros t; apply table_tprog).
  assert (PR : Forall prog_room (map calls ts)).
  { apply Forall_map. rewrite Forall_forall in *. intros t Ht. apply table_room_ok; auto.
    assert (table_room t <= sumz table_room ts); [|unfold room in R; rewrite total_sumz in R; pose proof (zlen_nonneg path); lia].
    clear - TR Ht. unfold sumz. induction ts as [|a l IH]; [contradiction|]. cbn [map fold_right].
    pose proof (TR a (or_introl eq_refl)).
    assert (0 <= fold_right Z.add 0 (map table_room l)).
    { clear - TR. induction l as [|b l IH]; [reflexivity|]. cbn [map fold_right]. pose proof (TR b (or_intror (or_introl eq_refl))).
      assert (0 <= fold_right Z.add 0 (map table_room l)) by (apply IH; intros x [->|X]; apply TR; [now left|right; now right]). lia. }
    destruct Ht as [->|Ht]; [lia|]. specialize (IH (fun x X => TR x (or_intror X)) Ht). lia. }
  destruct (session_fwd path (map calls ts) P TP PR ltac:(unfold kStartBigFile; lia)) as (f & es & H & D).
  exists es, f. split; [exact H|lia].
Qed.
Lemma fits path ts : user_path path -> Forall table_ok ts -> Forall writable ts -> few (map tb_name ts) -> room path ts <= 2000000000 ->
  exists es f, finished path ts es f /\ zlen (f_disk f) <= room path ts.
Proof.
  intros U T W N R. destruct (fits_any path ts U T W R) as (es & f & H & D).
  exists es, f. split; [|exact D]. split; [exact U|]. split; [exact T|]. split; [exact N|]. split; [exact H|lia].
Qed.
