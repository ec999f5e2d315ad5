(** Which entries go into which basket: the columns of a tree while it is written. *)
From Verif Require Import Base WBuf Values Key Obj TreeObj File FileLay FileOps Column ColOps TreeOps TreeWrite Spec SpecTree SpecRoom SpecBasket.
From Verif Require Import SlotFacts.

Lemma total_app {A} (g : A -> Z) l m : total g (l ++ m) = total g l + total g m.
Proof. induction l as [|a l IH]; cbn [app total]; [reflexivity|]. rewrite IH. lia. Qed.
Lemma total_ext {A} (g h : A -> Z) l : Forall (fun a => g a = h a) l -> total g l = total h l.
Proof. induction 1 as [|a l E _ IH]; cbn [total]; [reflexivity|]. rewrite E, IH. reflexivity. Qed.
Lemma cut_ext g h vs : forall held, Forall (fun v => g v = h v) (held ++ vs) -> cut g held vs = cut h held vs.
Proof.
  induction vs as [|v vs IH]; intros held F; cbn [cut]; [reflexivity|].
  replace (held ++ v :: vs) with ((held ++ [v]) ++ vs) in F by now rewrite <- app_assoc.
  rewrite Forall_app in F. destruct F as (F1 & F2). rewrite (total_ext _ _ _ F1).
  rewrite Forall_app in F1. destruct F1 as (F0 & Fv). inversion Fv as [|? ? E _]; subst. rewrite E.
  rewrite (IH [] F2). rewrite (IH (held ++ [v])) by (rewrite !Forall_app; auto). reflexivity.
Qed.
Lemma entries_snoc l p : forall n, entries_before n (l ++ [p]) = entries_before n l ++ [n + zlen (concat l) + zlen p].
Proof.
  induction l as [|q l IH]; intros n; cbn [app entries_before concat].
  - rewrite (@zlen_nil val). do 2 f_equal. lia.
  - rewrite IH, zlen_app. do 3 f_equal. lia.
Qed.
Lemma entries_seq l : entries_before 0 l = map (fun k => zlen (concat (firstn k l))) (seq 0 (S (length l))).
Proof.
  induction l as [|p l IH] using rev_ind; [reflexivity|].
  rewrite entries_snoc, IH, app_length, Nat.add_1_r, (seq_S (S (length l))), map_app. cbn [map length Nat.add].
  f_equal.
  - apply map_ext_in. intros k I. apply in_seq in I. rewrite firstn_app. replace (k - length l)%nat with 0%nat by lia.
    cbn [firstn]. now rewrite app_nil_r.
  - rewrite firstn_all2 by (rewrite app_length; cbn [length]; lia). rewrite concat_app, zlen_app. cbn [concat]. rewrite app_nil_r. reflexivity.
Qed.
Lemma entries_inj a : forall b n, entries_before n a = entries_before n b -> concat a = concat b -> a = b.
Proof.
  induction a as [|p a IH]; intros [|q b] n E C; cbn [entries_before] in E.
  - reflexivity.
  - destruct b; discriminate.
  - destruct a; discriminate.
  - injection E as E.
    assert (L : zlen p = zlen q).
    { destruct a, b; cbn [entries_before] in E; injection E; intros; lia. }
    cbn [concat] in C. rewrite !zlen_def in L. apply Nat2Z.inj in L.
    assert (p = q /\ concat a = concat b) as (-> & C').
    { assert (X : firstn (length p) (p ++ concat a) = firstn (length p) (q ++ concat b)) by now rewrite C.
      assert (Y : skipn (length p) (p ++ concat a) = skipn (length p) (q ++ concat b)) by now rewrite C.
      rewrite !firstn_app, L, Nat.sub_diag, <- L in X. rewrite (firstn_all p), L, (firstn_all q) in X. cbn [firstn] in X. rewrite !app_nil_r in X.
      rewrite !skipn_app, L, Nat.sub_diag, <- L in Y. rewrite (skipn_all p), L, (skipn_all q) in Y. cbn [skipn app] in Y. auto. }
    f_equal. exact (IH _ _ E C').
Qed.

(** ** One column *)
Section Col.
Variables (name : bytes) (t : ty) (vs : list val).
Hypotheses (C : col_ty t) (W : Forall (wt t) vs).
Definition esize (v : val) : Z := zlen (ent t v).

Lemma total_ents l : total esize l = zlen (ents t l).
Proof. induction l as [|v l IH]; cbn [total ents flat_map]; [reflexivity|]. rewrite zlen_app, IH. reflexivity. Qed.

(** The sizes as the writer computes them, and the places for the positions. *)
Definition isize (v : val) : Z := to_i32 (esize v).
Definition placed (p : list val) : Prop := vsize t = true -> slots_ok 1000 1000 0 (map isize p).
Definition places (cur : list val) (b : basket) : Prop := vsize t = true ->
  zlen (bk_offsets b) = fst (slots_after 1000 1000 0 (map isize cur)) /\
  bk_nevsize b = snd (slots_after 1000 1000 0 (map isize cur)) /\ bk_nevbuf b = zlen cur.
Lemma update_places cur v b sz b' : places cur b -> placed cur -> basket_update b sz = Ok b' ->
  placed (cur ++ [v]) /\ places (cur ++ [v]) (if bk_nevsize b' <? isize v then bk_set_size b' (isize v) else b').
Proof using.
  clear C W. intros P O H.
  assert (X : vsize t = true -> slots_ok 1000 1000 0 (map isize (cur ++ [v])) /\
    zlen (bk_offsets b') = fst (slots_after 1000 1000 0 (map isize (cur ++ [v]))) /\
    Z.max (bk_nevsize b') (isize v) = snd (slots_after 1000 1000 0 (map isize (cur ++ [v]))) /\ bk_nevbuf b' = zlen (cur ++ [v])).
  { intros V. destruct (P V) as (P1 & P2 & P3). specialize (O V). rewrite map_app. rewrite slots_app, after_app, zlen_map, Z.add_0_l.
    destruct (after_big (map isize cur) 1000 1000 0) as (G1 & G2); [lia|lia|].
    destruct (slots_after 1000 1000 0 (map isize cur)) as [S A]. cbn [fst snd map slots_ok slots_after] in *.
    unfold basket_update in H. destruct (bk_offsets b) as [|o0 os] eqn:EO; [rewrite (@zlen_nil Z) in P1; lia|]. rewrite <- EO in *.
    set (b0 := if bk_nevsize b <=? bk_nevbuf b + 1 then _ else _) in H.
    assert (B0 : zlen (bk_offsets b0) = fst (grow S A (zlen cur)) /\ bk_nevsize b0 = snd (grow S A (zlen cur)) /\ bk_nevbuf b0 = zlen cur).
    { unfold b0, grow. rewrite P2, P3. destruct (A <=? zlen cur + 1); cbn [bk_set_offsets bk_set_size bk_offsets bk_nevbuf bk_nevsize fst snd]; [|auto].
      rewrite zlen_app, zlen_repeat, P1. destruct (Z.ltb_spec 10 (2 * A)); [|lia]. split; [lia|auto]. }
    destruct B0 as (B1 & B2 & B3). clearbody b0. apply rbind_inv in H as (b1 & H & H2). apply rbind_inv in H as (o & HO & H). injection H as <-. injection H2 as <-.
    cbn [bk_set_nev bk_set_offsets bk_offsets bk_nevsize bk_nevbuf].
    unfold list_set in HO. destruct (Z.leb_spec 0 (bk_nevbuf b0)); [|discriminate]. destruct (Z.ltb_spec (bk_nevbuf b0) (zlen (bk_offsets b0))) as [L|]; [|discriminate].
    cbn [andb] in HO. set (l := firstn _ _ ++ _ :: skipn _ _) in HO.
    assert (LL : zlen l = zlen (bk_offsets b0)).
    { subst l. rewrite !zlen_def in *. rewrite app_length, firstn_length. cbn [length]. rewrite skipn_length. lia. }
    clearbody l. injection HO as <-.
    rewrite LL, B2, B3, zlen_app, zlen_cons, (@zlen_nil val). rewrite <- B1, <- B3. repeat split; auto; lia. }
  split; [intros V; apply (X V)|]. intros V. destruct (X V) as (_ & X2 & X3 & X4).
  destruct (Z.ltb_spec (bk_nevsize b') (isize v)); cbn [bk_set_size bk_offsets bk_nevsize bk_nevbuf]; repeat split; auto; lia.
Qed.

Definition held_is (c : wcol) (ds : list (list val)) (cur : list val) : Prop :=
  match wc_basket c with
  | Some wb => zlen (wp (wb_buf wb)) = total esize cur /\ zlen ds <= 32766 /\ Forall placed ds /\ placed cur /\ places cur (wb_basket wb)
  | None => ds = [] /\ cur = []
  end.
(** Baskets of 32768 bytes, and a table of 1000 places for positions. *)
Definition sized (c : wcol) : Prop := b_bsize (wc_core c) = 32768 /\ b_eol (wc_core c) = eol_for t /\
  b_zip (wc_core c) = total (fun z => z) (b_bytes (wc_core c)).
(** The leaf of a column of strings keeps the length of the longest. *)
Definition longer (m : Z) (v : val) : Z := if m <=? esize v then isize v else m.
Definition lasts (done : list val) (l : leaf) : Prop :=
  t = TString -> tl_len (lf_t l) = fold_left longer done 1 /\ lf_b l = fold_left longer done 0.
Definition leaf_at (done : list val) (l : leaf) : Prop := leaf_st name t l /\ lasts done l.
Lemma leaf_longer l v s l' done : leaf_at done l -> wt t v -> leaf_write l t v s = Ok (l', w_app s (ent t v)) -> leaf_st name t l' -> leaf_at (done ++ [v]) l'.
Proof.
  intros (L1 & L2) WV H L3. split; [exact L3|]. intros ET. destruct (L2 ET) as (A1 & A2). clear L2.
  rewrite !fold_left_app. cbn [fold_left]. rewrite <- A1, <- A2.
  destruct (writes_marshal t v WV s) as [[] WM]. pose proof (leaf_st_kind _ _ _ C L1) as K. rewrite ET in K. cbn [kind_for] in K.
  unfold leaf_write in H. rewrite K in H. unfold gets in H. unfold bind at 1 in H. rewrite (bind_Ok _ _ _ _ _ WM) in H. unfold bind at 1, ret in H.
  apply (f_equal (fun r => match r with Ok (x, _) => x | _ => l end)) in H. cbv beta iota in H. subst l'.
  cbn [lf_t lf_b tl_len]. unfold longer, isize, esize. unfold wpos. rewrite ET. cbn [ent].
  replace (zlen (wp (w_app s (enc TString v))) + woff (w_app s (enc TString v)) - (zlen (wp s) + woff s)) with (zlen (enc TString v)).
  2:{ unfold w_app, w_set_p. cbn [wp woff]. rewrite zlen_app. lia. }
  split; reflexivity.
Qed.
Definition half (c : wcol) (ds : list (list val)) (cur todo : list val) : Prop :=
  wc_ty c = t /\ leaf_at (concat ds ++ cur) (wc_leaf c) /\ sized c /\ wc_it c = map Some todo /\
  vs = concat ds ++ cur ++ todo /\ b_entries (wc_core c) = zlen (concat ds ++ cur) /\ b_entry (wc_core c) = entries_before 0 ds /\
  b_wb (wc_core c) = zlen ds /\ cut esize [] vs = ds ++ cut esize cur todo.
Definition cutting (c : wcol) : Prop := exists ds cur todo, half c ds cur todo /\ held_is c ds cur.
(** After the last basket is written. *)
Definition was_cut (c : wcol) : Prop := b_entry (wc_core c) = entries_before 0 (cut esize [] vs) /\ zlen (cut esize [] vs) <= 32767 /\
  Forall placed (cut esize [] vs) /\ b_zip (wc_core c) = total (fun z => z) (b_bytes (wc_core c)) /\ leaf_at vs (wc_leaf c).

Lemma sized_flush c nb : b_zip (wc_core c) = total (fun z => z) (b_bytes (wc_core c)) ->
  b_zip (wc_core c) + nb = total (fun z => z) (b_bytes (wc_core c) ++ [nb]).
Proof. intros ->. rewrite total_app. cbn [total]. lia. Qed.

Lemma flush_half c ds cur todo f f' c' : half c ds cur todo -> flush c f = (f', Ok c') ->
  wc_ty c' = t /\ leaf_at (concat (ds ++ [cur])) (wc_leaf c') /\ sized c' /\ wc_it c' = map Some todo /\
  b_entries (wc_core c') = zlen (concat (ds ++ [cur])) /\ b_entry (wc_core c') = entries_before 0 (ds ++ [cur]) /\
  b_wb (wc_core c') = zlen (ds ++ [cur]) /\ wc_basket c <> None.
Proof.
  intros (H1 & H2 & H3 & H4 & H5 & H6 & H7 & H8 & H9) H. unfold flush in H. destruct (wc_basket c) as [wb|] eqn:EB; [|discriminate].
  apply fbind_inv in H as (f1 & [k wb'] & _ & H). apply fbind_inv in H as (f2 & ? & H & H0). apply flift_inv in H as [-> _]. injection H0 as <- <-.
  cbn [wc_ty wc_leaf wc_core wc_it bc_set b_bsize b_entries b_entry b_wb fst].
  rewrite concat_app. cbn [concat]. rewrite app_nil_r.
  split; [exact H1|]. split; [exact H2|]. split; [destruct H3 as (X1 & X2 & X3); split; [exact X1|split; [exact X2|apply sized_flush, X3]]|].
  repeat (split; [assumption|]). split; [rewrite entries_snoc, H7, H6, zlen_app; reflexivity|].
  split; [rewrite zlen_app, H8, zlen_cons, (@zlen_nil (list val)); lia|discriminate].
Qed.

Lemma create_half tn c ds todo f f' c' :
  wc_ty c = t -> leaf_at (concat ds) (wc_leaf c) -> sized c -> wc_it c = map Some todo ->
  vs = concat ds ++ todo -> b_entries (wc_core c) = zlen (concat ds) -> b_entry (wc_core c) = entries_before 0 ds ->
  b_wb (wc_core c) = zlen ds -> zlen ds <= 32767 -> Forall placed ds -> cut esize [] vs = ds ++ cut esize [] todo ->
  create_new_basket tn c f = (f', Ok c') -> half c' ds [] todo /\ held_is c' ds [] /\ wc_basket c' <> None.
Proof.
  intros H1 H2 H3 H4 H5 H6 H7 H8 H9 HP H10 H. unfold create_new_basket in H. cbv zeta in H.
  destruct (negb (to_i16 (b_wb (wc_core c)) + 1 <? 32768)) eqn:EN; [discriminate|]. apply negb_false_iff, Z.ltb_lt in EN.
  apply fbind_inv in H as (f1 & wb & HX & H). apply fgets_inv in HX as [-> HW]. injection H as <- <-.
  rewrite H8 in EN. pose proof (zlen_nonneg ds).
  unfold half, held_is. cbn [wc_ty wc_leaf wc_core wc_it wc_basket bc_set b_bsize b_entries b_entry b_wb app]. rewrite app_nil_r.
  split; [repeat (split; [assumption|]); assumption|]. split; [|discriminate].
  split; [rewrite HW; reflexivity|]. split.
  - destruct (Z.le_gt_cases (zlen ds) 32766) as [L|L]; [exact L|].
    assert (zlen ds = 32767) as E by lia. rewrite E in EN. vm_compute in EN. discriminate EN.
  - split; [exact HP|]. split; [intros _; exact I|]. intros V. rewrite HW. unfold basket_new. cbn [wb_basket bk_offsets bk_nevsize bk_nevbuf].
    rewrite (proj1 (proj2 H3)). unfold eol_for. rewrite V, zlen_repeat. repeat split; reflexivity.
Qed.

Lemma entry_half tn c wb v ds cur todo f f' c' n : half c ds cur (v :: todo) -> held_is c ds cur -> wc_basket c = Some wb ->
  write_entry tn (mkWC (wc_ty c) (wc_core c) (wc_elem c) (wc_leaf c) (tl (wc_it c)) (wc_basket c)) wb v f = (f', Ok (c', n)) ->
  cutting c' /\ wc_basket c' <> None /\ wc_it c' = map Some todo /\ n = isize v.
Proof.
  intros (H1 & H2 & H3 & H4 & H5 & H6 & H7 & H8 & H9) HH EB H. unfold held_is in HH. rewrite EB in HH. destruct HH as (B1 & B2 & B3 & B4 & B5).
  unfold write_entry in H. cbv zeta in H. cbn [wc_core wc_leaf wc_ty wc_elem wc_it] in H.
  apply fbind_inv in H as (f1 & b & HX & H). apply flift_inv in HX as [-> HU].
  destruct (update_places cur v _ _ _ B5 B4 HU) as (PU1 & PU2).
  apply fbind_inv in H as (f1 & ls & HX & H). apply flift_inv in HX as [-> HL].
  assert (WV : wt t v). { rewrite H5 in W. rewrite !Forall_app in W. destruct W as (_ & _ & X). now inversion X. }
  rewrite H1 in HL. destruct (leaf_write_ent name (wc_leaf c) t v (wb_buf wb) C (proj1 H2) WV) as (l' & E1 & E0).
  assert (E2 : leaf_at (concat ds ++ cur ++ [v]) l') by (rewrite app_assoc; exact (leaf_longer _ _ _ _ _ H2 WV E1 E0)). rewrite E1 in HL. injection HL as <-. cbn [fst snd] in H.
  unfold w_app, w_set_p in H. cbn [wp] in H. rewrite zlen_app in H. fold (esize v) in H.
  assert (P : 1 <= esize v) by (apply ent_pos; assumption).
  pose proof (zlen_nonneg (wp (wb_buf wb))) as Z0.
  destruct (2 ^ 64 <=? _); [discriminate|].
  rewrite (proj1 H3) in H. rewrite H4 in H. cbn [map tl] in H.
  replace (zlen (wp (wb_buf wb)) + esize v - zlen (wp (wb_buf wb))) with (esize v) in H by lia.
  assert (CT : cut esize cur (v :: todo) =
    if 32768 <=? zlen (wp (wb_buf wb)) + esize v + to_u64 (to_i32 (esize v)) then (cur ++ [v]) :: cut esize [] todo else cut esize (cur ++ [v]) todo).
  { cbn [cut]. rewrite total_app. cbn [total]. rewrite Z.add_0_r, <- B1.
    destruct (Z.lt_ge_cases (esize v) 2147483648) as [L|L].
    - replace (to_u64 (to_i32 (esize v))) with (esize v); [reflexivity|].
      rewrite to_i32_id by (unfold is_i32; lia). rewrite to_u64_small by lia. reflexivity.
    - destruct (Z.leb_spec 32768 (zlen (wp (wb_buf wb)) + esize v + esize v)); [|lia].
      destruct (Z.leb_spec 32768 (zlen (wp (wb_buf wb)) + esize v + to_u64 (to_i32 (esize v)))) as [_|X]; [reflexivity|].
      exfalso. assert (0 <= to_u64 (to_i32 (esize v))) by (unfold to_u64, wrap_u; apply Z.mod_pos_bound; reflexivity). lia. }
  set (c1 := mkWC _ _ _ _ _ _) in H.
  assert (HC : forall ds' cur', wc_ty c1 = t /\ leaf_at (concat ds ++ cur ++ [v]) (wc_leaf c1) /\ sized c1 /\ wc_it c1 = map Some todo /\
    (vs = concat ds ++ (cur ++ [v]) ++ todo) /\ b_entries (wc_core c1) = zlen (concat ds ++ cur ++ [v]) /\ b_entry (wc_core c1) = entries_before 0 ds /\ b_wb (wc_core c1) = zlen ds /\
    (cut esize [] vs = ds' ++ cut esize cur' todo -> cut esize [] vs = ds' ++ cut esize cur' todo)).
  { intros ds' cur'. subst c1. cbn [wc_ty wc_leaf wc_core wc_it bc_set b_bsize b_entries b_entry b_wb].
    split; [exact H1|]. split; [exact E2|]. split; [exact H3|]. split; [reflexivity|].
    split; [rewrite H5 at 1; now rewrite <- !app_assoc|]. split; [rewrite app_assoc, zlen_app, H6, zlen_cons, (@zlen_nil val); lia|]. auto. }
  rewrite CT in H9. destruct (32768 <=? _) eqn:EC.
  - apply fbind_inv in H as (f1 & c2 & HF & H). apply fbind_inv in H as (f2 & c3 & HN & H). injection H as <- <- <-.
    destruct (HC [] []) as (A1 & A2 & A3 & A4 & A5 & A6 & A7 & A8 & _).
    clearbody c1.
    assert (F : wc_ty c2 = t /\ leaf_at (concat (ds ++ [cur ++ [v]])) (wc_leaf c2) /\ sized c2 /\ wc_it c2 = map Some todo /\
      b_entries (wc_core c2) = zlen (concat (ds ++ [cur ++ [v]])) /\ b_entry (wc_core c2) = entries_before 0 (ds ++ [cur ++ [v]]) /\ b_wb (wc_core c2) = zlen (ds ++ [cur ++ [v]])).
    { unfold flush in HF. destruct (wc_basket c1) as [wb1|]; [|discriminate].
      apply fbind_inv in HF as (g1 & [k wb'] & _ & HF). apply fbind_inv in HF as (g2 & ? & HX & HF). apply flift_inv in HX as [-> _]. injection HF as <- <-.
      cbn [wc_ty wc_leaf wc_core wc_it bc_set b_bsize b_entries b_entry b_wb fst]. rewrite concat_app. cbn [concat]. rewrite app_nil_r.
      split; [exact A1|]. split; [exact A2|]. split; [destruct A3 as (X1 & X2 & X3); split; [exact X1|split; [exact X2|apply sized_flush, X3]]|].
      repeat (split; [assumption|]). split; [rewrite entries_snoc, A7, A6, zlen_app; reflexivity|].
      rewrite zlen_app, A8, zlen_cons, (@zlen_nil (list val)); lia. }
    destruct F as (F1 & F2 & F3 & F4 & F5 & F6 & F7).
    assert (E9 : cut esize [] vs = (ds ++ [cur ++ [v]]) ++ cut esize [] todo) by (rewrite H9, <- app_assoc; reflexivity).
    assert (E5 : vs = concat (ds ++ [cur ++ [v]]) ++ todo) by (rewrite concat_app; cbn [concat]; rewrite app_nil_r, <- app_assoc; exact A5).
    destruct (create_half tn c2 (ds ++ [cur ++ [v]]) todo f1 f2 c3 F1 F2 F3 F4 E5 F5 F6 F7) as (G1 & G2 & G3).
    + rewrite zlen_app, zlen_cons, (@zlen_nil (list val)). lia.
    + apply Forall_app. auto.
    + exact E9.
    + exact HN.
    + split; [exists (ds ++ [cur ++ [v]]), [], todo; auto|]. split; [exact G3|]. split; [apply G1|reflexivity].
  - injection H as <- <- <-. destruct (HC [] []) as (A1 & A2 & A3 & A4 & A5 & A6 & A7 & A8 & _).
    split; [exists ds, (cur ++ [v]), todo; split|split; [subst c1; discriminate|split; [exact A4|reflexivity]]].
    + unfold half. repeat (split; [assumption|]). exact H9.
    + unfold held_is. subst c1. cbn [wc_basket wb_buf wp wb_basket]. split; [|split; [exact B2|split; [exact B3|split; [exact PU1|exact PU2]]]].
      rewrite zlen_app, B1, total_app. cbn [total]. fold (esize v). lia.
Qed.

Lemma write_cutting tn c f f' c' o : cutting c -> wcol_write tn c f = (f', Ok (c', o)) ->
  cutting c' /\ (o = None -> wc_it c' = []) /\ (wc_it c = [] -> wc_it c' = []) /\
  match o with None => wc_it c = [] | Some n => exists v, wc_it c = Some v :: wc_it c' /\ n = isize v end.
Proof.
  intros (ds & cur & todo & HF & HH) H. unfold wcol_write in H. apply fbind_inv in H as (f1 & c1 & H1 & H).
  assert (S1 : half c1 ds cur todo /\ held_is c1 ds cur).
  { destruct (wc_basket c) as [wb|] eqn:EB; [injection H1 as <- <-; split; assumption|].
    unfold held_is in HH. rewrite EB in HH. destruct HH as (-> & ->).
    destruct HF as (A1 & A2 & A3 & A4 & A5 & A6 & A7 & A8 & A9).
    destruct (create_half tn c [] todo f f1 c1 A1 A2 A3 A4 A5 A6 A7 A8) as (X & Y & _); auto. rewrite (@zlen_nil (list val)). lia. }
  assert (ETD : wc_it c = map Some todo) by apply HF.
  clear HF HH H1. destruct S1 as (HF & HH). assert (EI : wc_it c1 = map Some todo) by apply HF.
  destruct (wc_basket c1) as [wb|] eqn:EB; [|discriminate].
  destruct todo as [|v todo].
  - rewrite EI in H. cbn [map hd tl] in H. injection H as <- <- <-. cbn [wc_it]. split; [|split; [reflexivity|split; [reflexivity|exact ETD]]].
    exists ds, cur, []. unfold half, held_is in *. cbn [wc_ty wc_leaf wc_core wc_it wc_basket map]. rewrite EB in HH. split; [|exact HH]. destruct HF as (A1 & A2 & A3 & A4 & A). auto.
  - rewrite <- EB in H. assert (EH : hd None (wc_it c1) = Some v) by (rewrite EI; reflexivity). rewrite EH in H.
    rewrite EB in H. rewrite <- EB in H at 1.
    apply fbind_inv in H as (f2 & [c2 n] & H2 & H). injection H as <- <- <-.
    rewrite EB in H2. rewrite <- EB in H2.
    destruct (entry_half tn c1 wb v ds cur todo f1 f2 c2 n HF HH EB H2) as (G1 & _ & G2 & G3). cbn [fst snd].
    split; [exact G1|]. split; [discriminate|]. split; [intros E; rewrite ETD in E; discriminate E|]. exists v. rewrite ETD, G2. split; [reflexivity|exact G3].
Qed.

Lemma flush_cut c f f' c' : cutting c -> wc_it c = [] -> flush c f = (f', Ok c') -> was_cut c'.
Proof.
  intros (ds & cur & todo & HF & HH) E H. assert (todo = []) as ->.
  { destruct HF as (_ & _ & _ & X & _). rewrite E in X. destruct todo; [reflexivity|discriminate X]. }
  pose proof (flush_half _ _ _ _ _ _ _ HF H) as (_ & LF & (_ & _ & SZ) & _ & _ & X & _ & NB).
  destruct HF as (_ & _ & _ & _ & EV & _ & _ & _ & CT). cbn [cut] in CT. unfold was_cut. rewrite CT.
  split; [exact X|]. unfold held_is in HH. destruct (wc_basket c); [|congruence]. rewrite zlen_app, zlen_cons, (@zlen_nil (list val)).
  destruct HH as (_ & HH1 & HH2 & HH3 & _). split; [lia|]. split; [apply Forall_app; auto|]. split; [exact SZ|].
  rewrite concat_app in LF. cbn [concat] in LF. rewrite !app_nil_r in *. rewrite EV. exact LF.
Qed.
End Col.

(** ** A tree *)
Definition at_work (s : cspec) (cd : wcol * bool) : Prop :=
  forall vs, cs_it s = map Some vs -> col_ty (cs_ty s) -> Forall (wt (cs_ty s)) vs ->
    cutting (cs_name s) (cs_ty s) vs (fst cd) /\ (snd cd = true -> wc_it (fst cd) = []).
Definition cut_up (s : cspec) (c : wcol) : Prop :=
  forall vs, cs_it s = map Some vs -> col_ty (cs_ty s) -> Forall (wt (cs_ty s)) vs -> was_cut (cs_name s) (cs_ty s) vs c.

Lemma row_cutting tn ncb ss cols : Forall2 at_work ss cols -> forall tot f f' cols' t ev,
  write_row tn ncb cols tot f = (f', Ok (cols', t, ev)) -> Forall2 at_work ss cols'.
Proof.
  induction 1 as [|s [c d] ss cols A _ IH]; intros tot f f' cols' t ev H; cbn [write_row] in H.
  - injection H as _ <- _ _. constructor.
  - apply fbind_inv in H as (f1 & [c1 o] & H1 & H). apply fbind_inv in H as (f2 & tot' & H2 & H).
    apply fbind_inv in H as (f3 & [[r' t'] ev'] & H3 & H). injection H as _ <- _ _. constructor; [|exact (IH _ _ _ _ _ _ H3)].
    intros vs E C W. destruct (A vs E C W) as (A1 & A2). cbn [fst snd] in *.
    destruct (write_cutting _ _ _ C W _ _ _ _ _ _ A1 H1) as (B1 & B2 & B3 & _). split; [exact B1|].
    destruct o; [intros ED; apply B3, A2, ED|intros _; now apply B2].
Qed.

Lemma rows_cutting fuel tn ncb ss : forall t cols ev f f' t' cols' ev', Forall2 at_work ss cols ->
  write_rows fuel tn ncb t cols ev f = (f', Ok (t', cols', ev')) -> Forall2 at_work ss cols' /\ forallb snd cols' = true.
Proof.
  induction fuel as [|n IH]; intros t cols ev f f' t' cols' ev' A H; cbn [write_rows] in H; [discriminate|].
  apply fbind_inv in H as (f1 & [[c1 tot] ev1] & H1 & H). pose proof (row_cutting _ _ _ _ A _ _ _ _ _ _ H1) as A1. destruct (forallb snd c1) eqn:EA.
  - injection H as _ _ <- _. split; assumption.
  - exact (IH _ _ _ _ _ _ _ _ A1 H).
Qed.

Lemma flush_all_cut ss cols : Forall2 at_work ss cols -> forallb snd cols = true -> forall f f' cols', flush_all (map fst cols) f = (f', Ok cols') ->
  Forall2 cut_up ss cols'.
Proof.
  induction 1 as [|s [c d] ss cols A _ IH]; intros E f f' cols' H; cbn [flush_all map fst] in H.
  - injection H as _ <-. constructor.
  - apply fbind_inv in H as (f1 & c1 & H1 & H). apply fbind_inv in H as (f2 & r & H2 & H). injection H as _ <-.
    cbn [forallb snd] in E. apply andb_prop in E as (-> & E). constructor; [|exact (IH E _ _ _ H2)].
    intros vs EI C W. destruct (A vs EI C W) as (A1 & A2). exact (flush_cut _ _ _ _ _ _ _ A1 (A2 eq_refl) H1).
Qed.

Lemma fresh_work s c : fresh s c -> at_work s (c, false).
Proof.
  intros (F1 & F2 & F3 & F4) vs E C W. cbn [fst snd]. split; [|discriminate].
  destruct (F3 [] [] []) as (G1 & G2 & G3 & (mb & tot & en & G4 & G5 & _ & G6) & _).
  change (rsize []) with 0 in G6. assert (tot = 0) as -> by lia.
  assert (LA : leaf_at (cs_name s) (cs_ty s) [] (wc_leaf c)).
  { split; [exact G3|]. intros ET. rewrite ET in F4. cbn [leaf_new] in F4. injection F4 as <-. split; reflexivity. }
  exists [], [], vs. unfold half, held_is, sized. rewrite F2, G4, F1, E, G5. cbn [ccore b_bsize b_eol b_entries b_entry b_wb b_zip b_bytes concat app].
  split; [|split; reflexivity]. repeat (split; [assumption || reflexivity || (split; [reflexivity|split; reflexivity])|]). reflexivity.
Qed.

Lemma tree_cut db ss w f f' w' : Forall2 fresh ss (wt_cols w) -> tree_write db w f = (f', Ok w') -> Forall2 cut_up ss (wt_cols w').
Proof.
  intros F H. unfold tree_write in H. cbv zeta in H.
  apply fbind_inv in H as (f1 & [[t' cols] ev] & H1 & H). apply fbind_inv in H as (f2 & cols' & H2 & H). injection H as <- <-.
  apply (rows_cutting _ _ _ ss) in H1 as (A1 & A2).
  - unfold tree_close in H2. apply fbind_inv in H2 as (f3 & cols2 & HF & H2). apply fbind_inv in H2 as (f4 & [] & HP & H2).
    destruct (wt_sinfos w) as [l|]; [|discriminate]. apply fbind_inv in H2 as (f5 & x & HI & H2). injection H2 as <- <-.
    exact (flush_all_cut _ _ A1 A2 _ _ _ HF).
  - clear - F. induction F; cbn [map]; constructor; auto. now apply fresh_work.
Qed.

(** ** The number of bytes of a tree *)
Definition plain (s : cspec) : Prop := exists vs, cs_it s = map Some vs /\ col_ty (cs_ty s) /\ Forall (wt (cs_ty s)) vs.
Definition still (s : cspec) (it : list (option val)) : Z := total (isize (cs_ty s)) (somes it).
Fixpoint stills (ss : list cspec) (cols : list (wcol * bool)) : Z :=
  match ss, cols with s :: ss, cd :: cols => still s (wc_it (fst cd)) + stills ss cols | _, _ => 0 end.
Lemma row_total tn ncb ss cols : Forall2 at_work ss cols -> Forall plain ss -> forall tot f f' cols' t ev,
  write_row tn ncb cols tot f = (f', Ok (cols', t, ev)) -> t + stills ss cols' = tot + stills ss cols.
Proof.
  induction 1 as [|s [c d] ss cols A _ IH]; intros PL tot f f' cols' t ev H; cbn [write_row] in H.
  - injection H as _ <- <- _. reflexivity.
  - inversion PL as [|? ? (vs & E & C & W) PL']; subst.
    apply fbind_inv in H as (f1 & [c1 o] & H1 & H). apply fbind_inv in H as (f2 & tot' & H2 & H).
    apply fbind_inv in H as (f3 & [[r' t'] ev'] & H3 & H). injection H as _ <- <- _.
    specialize (IH PL' _ _ _ _ _ _ H3). cbn [stills fst snd] in *. destruct (A vs E C W) as (A1 & _). cbn [fst] in A1.
    destruct (write_cutting _ _ _ C W _ _ _ _ _ _ A1 H1) as (_ & B2 & _ & B). unfold still in *. destruct o as [n|].
    + apply flift_inv in H2 as [_ H2]. apply add_i32_inv in H2 as [-> _]. destruct B as (v & -> & ->). cbn [somes total]. lia.
    + injection H2 as _ <-. rewrite B, (B2 eq_refl). cbn [somes total]. lia.
Qed.
Lemma stills_done ss cols : Forall2 at_work ss cols -> Forall plain ss -> forallb snd cols = true -> stills ss cols = 0.
Proof.
  induction 1 as [|s [c d] ss cols A _ IH]; intros PL H; [reflexivity|]. inversion PL as [|? ? (vs & E & C & W) PL']; subst.
  cbn [forallb snd] in H. apply andb_prop in H as (-> & H). cbn [stills fst]. destruct (A vs E C W) as (_ & B). cbn [fst snd] in B.
  rewrite (B eq_refl), (IH PL' H). reflexivity.
Qed.
Lemma rows_total fuel tn ncb ss : Forall plain ss -> forall t cols ev f f' t' cols' ev', Forall2 at_work ss cols ->
  write_rows fuel tn ncb t cols ev f = (f', Ok (t', cols', ev')) -> t_tot t' = t_tot t + stills ss cols.
Proof.
  intros PL. induction fuel as [|n IH]; intros t cols ev f f' t' cols' ev' A H; cbn [write_rows] in H; [discriminate|].
  apply fbind_inv in H as (f1 & [[c1 tot] ev1] & H1 & H). pose proof (row_cutting _ _ _ _ A _ _ _ _ _ _ H1) as A1.
  pose proof (row_total _ _ _ _ A PL _ _ _ _ _ _ H1) as R. destruct (forallb snd c1) eqn:EA.
  - injection H as _ <- _ _. rewrite (stills_done _ _ A1 PL EA) in R. cbn [t_add t_tot]. lia.
  - apply IH in H; [|exact A1]. cbn [t_add t_tot] in H. lia.
Qed.
Definition tree_total (ss : list cspec) (tot : Z) : Prop := Forall plain ss -> tot = total (fun s => still s (cs_it s)) ss.
Lemma tree_counts db ss w f f' w' : Forall2 fresh ss (wt_cols w) -> t_tot (wt_tree w) = 0 -> tree_write db w f = (f', Ok w') ->
  tree_total ss (t_tot (wt_tree w')).
Proof.
  intros F Z0 H PL. unfold tree_write in H. cbv zeta in H.
  apply fbind_inv in H as (f1 & [[t' cols] ev] & H1 & H). apply fbind_inv in H as (f2 & cols' & H2 & H). injection H as <- <-.
  apply (rows_total _ _ _ ss PL) in H1.
  - cbn [wt_tree]. rewrite H1, Z0. clear - F. induction F as [|s c ss cs (E & _) _ IH]; [reflexivity|]. cbn [map stills fst total].
    rewrite <- IH, E. lia.
  - clear - F. induction F; cbn [map]; constructor; auto. now apply fresh_work.
Qed.
