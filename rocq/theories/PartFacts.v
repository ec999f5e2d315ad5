(** Where the records of a file are: each one begins where the file ended before it was
    written, and the file ends behind it afterwards. *)
From Verif Require Import Base Values Key File FileLay FileOps Column ColOps TreeOps TreeWrite TreeSession BasketFacts SpecDamage.

Definition fend (f : file) : Z := fh_end (f_hdr f).
(** 1 from [a] on *)
Definition from (x a : Z) : Z := if a <=? x then 1 else 0.
(** The number of places that contain [x], if no length is negative. *)
Definition hits (x : Z) (l : list (Z * Z)) : Z := fold_right (fun p n => from x (fst p) - from x (fst p + snd p) + n) 0 l.
Lemma hits_app x l m : hits x (l ++ m) = hits x l + hits x m.
Proof.
  induction l as [|p l IH]; [reflexivity|]. change ((p :: l) ++ m) with (p :: (l ++ m)).
  change (hits x (p :: (l ++ m))) with (from x (fst p) - from x (fst p + snd p) + hits x (l ++ m)).
  change (hits x (p :: l)) with (from x (fst p) - from x (fst p + snd p) + hits x l). lia.
Qed.
Lemma hits_owners x l : Forall (fun p => 0 <= snd p) l -> hits x l = Z.of_nat (owners x l).
Proof.
  unfold owners. induction 1 as [|[s n] l H _ IH]; [reflexivity|]. cbn [hits fold_right filter fst snd]. fold (hits x l). rewrite IH. cbn [snd] in H. unfold from.
  destruct (Z.leb_spec s x), (Z.ltb_spec x (s + n)), (Z.leb_spec (s + n) x); cbn [andb length]; lia.
Qed.

Definition wc_parts (c : wcol) : list (Z * Z) := combine (b_seek (wc_core c)) (b_bytes (wc_core c)).
Definition even (c : wcol) : Prop := length (b_seek (wc_core c)) = length (b_bytes (wc_core c)).
Definition all_parts (cs : list wcol) : list (Z * Z) := flat_map wc_parts cs.

Lemma combine_snoc {A B} (a : list A) (b : list B) x y : length a = length b -> combine (a ++ [x]) (b ++ [y]) = combine a b ++ [(x, y)].
Proof. revert b; induction a as [|a0 a IH]; intros [|b0 b] H; try discriminate; [reflexivity|]. cbn [app combine]. f_equal. apply IH. now injection H. Qed.

Lemma fend_write p b f f' : fwrite p b f = (f', Ok tt) -> fend f' = fend f /\ f_dir f' = f_dir f.
Proof. intros H. apply fwrite_inv in H as (log & _ & ->). split; reflexivity. Qed.

Lemma fend_set_end pos f f' : set_end pos f = (f', Ok tt) -> fend f' = pos /\ f_dir f' = f_dir f.
Proof.
  intros H. unfold set_end in H. apply fbind_inv in H as (f1 & [] & H1 & H). apply fmodify_inv in H1 as ->.
  apply fbind_inv in H as (f2 & sp & H2 & H). apply fgets_inv in H2 as [-> ->].
  destruct (rev _) as [|s r]; [discriminate|]. destruct (_ =? _); [|discriminate]. apply fmodify_inv in H as ->. split; reflexivity.
Qed.

Lemma key_from_ends kl name title class cy buf f f' k : key_from kl name title class cy buf f = (f', Ok k) ->
  k_seek k = fend f /\ fend f' = fend f + k_nbytes k /\ f_dir f' = f_dir f.
Proof.
  intros H. unfold key_from in H. cbv zeta in H. apply fbind_inv in H as (f1 & ? & H1 & H). apply flift_inv in H1 as [-> _].
  apply fbind_inv in H as (f1 & eof & H1 & H). apply fgets_inv in H1 as [-> ->].
  apply fbind_inv in H as (f1 & ? & H1 & H). apply fgets_inv in H1 as [-> _].
  apply fbind_inv in H as (f1 & ? & H1 & H). apply fgets_inv in H1 as [-> _].
  apply fbind_inv in H as (f1 & ? & H1 & H). apply fgets_inv in H1 as [-> _].
  apply fbind_inv in H as (f1 & ? & H1 & H). apply flift_inv in H1 as [-> _].
  apply fbind_inv in H as (f1 & nb & H1 & H). apply flift_inv in H1 as [-> _].
  apply fbind_inv in H as (f1 & [] & H1 & H). injection H as <- <-. apply fend_set_end in H1 as [E1 E2]. cbn [k_seek k_nbytes]. auto.
Qed.

Lemma basket_ends wb f f' k wb' : basket_write wb f = (f', Ok (k, wb')) ->
  k_seek k = fend f /\ fend f' = fend f + k_nbytes k /\ f_dir f' = f_dir f.
Proof.
  intros H. unfold basket_write in H. cbv zeta in H.
  apply fbind_inv in H as (f1 & ? & H1 & H). apply fgets_inv in H1 as [-> _].
  apply fbind_inv in H as (f1 & ? & H1 & H). apply flift_inv in H1 as [-> _].
  apply fbind_inv in H as (f1 & buf & H1 & H). apply flift_inv in H1 as [-> _].
  apply fbind_inv in H as (f1 & k' & H1 & H). unfold key_from_buffer in H1. apply fbind_inv in H1 as (f2 & ? & H2 & H1).
  apply fgets_inv in H2 as [-> _]. apply key_from_ends in H1 as (K1 & K2 & K3).
  apply fbind_inv in H as (f2 & ? & H1 & H). apply flift_inv in H1 as [-> _].
  apply fbind_inv in H as (f2 & [] & H1 & H). apply fend_write in H1 as [A1 A2].
  apply fbind_inv in H as (f3 & [] & H1 & H). apply fend_write in H1 as [B1 B2]. injection H as <- <- _.
  split; [exact K1|]. split; congruence.
Qed.

(** What an operation on columns adds. *)
Definition adds (f f' : file) (l l' : list (Z * Z)) : Prop :=
  (forall x, hits x l' = hits x l + (from x (fend f) - from x (fend f'))) /\ f_dir f' = f_dir f.
Lemma adds_refl f l : adds f f l l.
Proof. split; [intros x; lia|reflexivity]. Qed.
Lemma adds_trans f g h l m n : adds f g l m -> adds g h m n -> adds f h l n.
Proof. intros [A1 A2] [B1 B2]. split; [intros x; rewrite B1, A1; lia|congruence]. Qed.
Lemma adds_frame f f' l l' a b : adds f f' l l' -> adds f f' (a ++ l ++ b) (a ++ l' ++ b).
Proof. intros [A1 A2]. split; [|exact A2]. intros x. rewrite !hits_app, A1. lia. Qed.

Definition steps (f f' : file) (c c' : wcol) : Prop := even c -> even c' /\ adds f f' (wc_parts c) (wc_parts c').
Lemma steps_same f c c' : wc_core c' = wc_core c -> steps f f c c'.
Proof. intros E H. unfold even, wc_parts in *. rewrite E. split; [exact H|apply adds_refl]. Qed.
Lemma steps_trans f g h c d e : steps f g c d -> steps g h d e -> steps f h c e.
Proof. intros A B H. destruct (A H) as [H1 A1]. destruct (B H1) as [H2 A2]. split; [exact H2|]. exact (adds_trans _ _ _ _ _ _ A1 A2). Qed.

Lemma flush_steps c f f' c' : flush c f = (f', Ok c') -> steps f f' c c'.
Proof.
  intros H EV. unfold flush in H. destruct (wc_basket c) as [wb|]; [|discriminate].
  apply fbind_inv in H as (f1 & [k wb'] & H1 & H). apply basket_ends in H1 as (K1 & K2 & K3).
  apply fbind_inv in H as (f2 & ? & H1 & H). apply flift_inv in H1 as [-> _]. injection H as <- <-.
  unfold even, wc_parts in *. cbn [wc_core bc_set b_seek b_bytes fst].
  split; [rewrite !app_length, EV; reflexivity|]. rewrite combine_snoc by exact EV. split; [|exact K3].
  intros y. rewrite hits_app. cbn [hits fold_right fst snd]. rewrite K1, K2. lia.
Qed.

Lemma create_steps tn c f f' c' : create_new_basket tn c f = (f', Ok c') -> steps f f' c c'.
Proof.
  intros H. unfold create_new_basket in H. cbv zeta in H. destruct (negb _); [discriminate|].
  apply fbind_inv in H as (f1 & wb & H1 & H). apply fgets_inv in H1 as [-> _]. injection H as <- <-.
  intros EV. split; [exact EV|apply adds_refl].
Qed.

Lemma entry_steps tn c wb v f f' c' n : write_entry tn c wb v f = (f', Ok (c', n)) -> steps f f' c c'.
Proof.
  intros H. unfold write_entry in H. cbv zeta in H.
  apply fbind_inv in H as (f1 & b & H1 & H). apply flift_inv in H1 as [-> _].
  apply fbind_inv in H as (f1 & ls & H1 & H). apply flift_inv in H1 as [-> _].
  destruct (2 ^ 64 <=? _); [discriminate|].
  destruct (b_bsize (wc_core c) <=? _).
  - apply fbind_inv in H as (f1 & c1 & H1 & H). apply fbind_inv in H as (f2 & c2 & H2 & H). injection H as <- <- _.
    apply flush_steps in H1. apply create_steps in H2. intros EV.
    exact (steps_trans _ _ _ _ _ _ H1 H2 EV).
  - injection H as <- <- _. intros EV. split; [exact EV|apply adds_refl].
Qed.

Lemma write_steps tn c f f' c' o : wcol_write tn c f = (f', Ok (c', o)) -> steps f f' c c'.
Proof.
  intros H. unfold wcol_write in H. apply fbind_inv in H as (f1 & c1 & H1 & H).
  assert (S1 : steps f f1 c c1).
  { destruct (wc_basket c); [injection H1 as <- <-; now apply steps_same|exact (create_steps _ _ _ _ _ H1)]. }
  destruct (wc_basket c1) as [wb|]; [|discriminate]. destruct (hd None (wc_it c1)) as [v|].
  - apply fbind_inv in H as (f2 & [c2 n] & H2 & H). injection H as <- <- _. apply entry_steps in H2. exact (steps_trans _ _ _ _ _ _ S1 H2).
  - injection H as <- <- _. exact (steps_trans _ _ _ _ _ _ S1 (steps_same f1 _ _ eq_refl)).
Qed.

Definition all_steps (f f' : file) (cs cs' : list wcol) : Prop := Forall even cs -> Forall even cs' /\ adds f f' (all_parts cs) (all_parts cs').
Lemma all_steps_trans f g h c d e : all_steps f g c d -> all_steps g h d e -> all_steps f h c e.
Proof. intros A B H. destruct (A H) as [H1 A1]. destruct (B H1) as [H2 A2]. split; [exact H2|]. exact (adds_trans _ _ _ _ _ _ A1 A2). Qed.
Lemma all_steps_cons f g h c c' cs cs' : steps f g c c' -> all_steps g h cs cs' -> all_steps f h (c :: cs) (c' :: cs').
Proof.
  intros A B H. inversion H as [|? ? H1 H2]; subst. destruct (A H1) as [E1 A1]. destruct (B H2) as [E2 A2]. split; [constructor; assumption|].
  unfold all_parts in *. cbn [flat_map]. apply (adds_frame _ _ _ _ [] (flat_map wc_parts cs)) in A1. apply (adds_frame _ _ _ _ (wc_parts c') []) in A2.
  rewrite !app_nil_r in A2. exact (adds_trans _ _ _ _ _ _ A1 A2).
Qed.

Lemma row_steps tn ncb cols : forall tot f f' cols' t ev, write_row tn ncb cols tot f = (f', Ok (cols', t, ev)) ->
  all_steps f f' (map fst cols) (map fst cols').
Proof.
  induction cols as [|[c b] cols IH]; intros tot f f' cols' t ev H; cbn [write_row] in H.
  - injection H as <- <- _ _. intros _. split; [constructor|apply adds_refl].
  - apply fbind_inv in H as (f1 & [c1 o] & H1 & H). apply fbind_inv in H as (f2 & tot' & H2 & H).
    assert (f2 = f1) as -> by (cbn [snd] in H2; destruct o; [apply flift_inv in H2|injection H2; intros]; tauto || congruence).
    apply fbind_inv in H as (f3 & [[r' t'] ev'] & H3 & H). injection H as <- <- _ _. cbn [map fst].
    exact (all_steps_cons _ _ _ _ _ _ _ (write_steps _ _ _ _ _ _ H1) (IH _ _ _ _ _ _ H3)).
Qed.

Lemma rows_steps fuel tn ncb : forall t cols ev f f' t' cols' ev', write_rows fuel tn ncb t cols ev f = (f', Ok (t', cols', ev')) ->
  all_steps f f' (map fst cols) (map fst cols').
Proof.
  induction fuel as [|n IH]; intros t cols ev f f' t' cols' ev' H; cbn [write_rows] in H; [discriminate|].
  apply fbind_inv in H as (f1 & [[c1 tot] ev1] & H1 & H). apply row_steps in H1. destruct (forallb snd c1).
  - injection H as <- _ <- _. exact H1.
  - exact (all_steps_trans _ _ _ _ _ _ H1 (IH _ _ _ _ _ _ _ _ H)).
Qed.

Lemma flush_all_steps cols : forall f f' cols', flush_all cols f = (f', Ok cols') -> all_steps f f' cols cols'.
Proof.
  induction cols as [|c cols IH]; intros f f' cols' H; cbn [flush_all] in H.
  - injection H as <- <-. intros _. split; [constructor|apply adds_refl].
  - apply fbind_inv in H as (f1 & c1 & H1 & H). apply fbind_inv in H as (f2 & r & H2 & H). injection H as <- <-.
    exact (all_steps_cons _ _ _ _ _ _ _ (flush_steps _ _ _ _ H1) (IH _ _ _ H2)).
Qed.

Section DB.
Variable db : bytes -> Z -> option sinfo.

Lemma sinfo_ends si f f' : add_sinfo si f = (f', Ok tt) -> fend f' = fend f /\ f_dir f' = f_dir f.
Proof. clear db. intros H. apply fmodify_inv in H as ->. destruct (existsb _ _); split; reflexivity. Qed.

Lemma put_ends name o f f' : put_obj db name o f = (f', Ok tt) ->
  exists k, d_keys (f_dir f') = d_keys (f_dir f) ++ [k] /\ k_seek k = fend f /\ fend f' = fend f + k_nbytes k.
Proof.
  intros H. unfold put_obj in H. destruct (existsb (Z.eqb 47) name); [discriminate|]. cbv zeta in H.
  apply fbind_inv in H as (f1 & ks & H1 & H). apply fgets_inv in H1 as [-> ->].
  apply fbind_inv in H as (f1 & cy & H1 & H). apply flift_inv in H1 as [-> _].
  apply fbind_inv in H as (f1 & cy' & H1 & H). apply flift_inv in H1 as [-> _].
  apply fbind_inv in H as (f1 & [] & H1 & H).
  assert (E1 : fend f1 = fend f /\ f_dir f1 = f_dir f).
  { destruct (is_core_type (o_cls o)); [injection H1 as <-; auto|]. destruct (db (o_cls o) (o_vers o)); [|discriminate]. exact (sinfo_ends _ _ _ H1). }
  destruct E1 as [E1 E2].
  apply fbind_inv in H as (f2 & k & H2 & H). unfold key_from_object in H2.
  apply fbind_inv in H2 as (f3 & ? & H3 & H2). apply fgets_inv in H3 as [-> _].
  apply fbind_inv in H2 as (f3 & ? & H3 & H2). apply flift_inv in H3 as [-> _]. apply key_from_ends in H2 as (K1 & K2 & K3).
  apply fbind_inv in H as (f3 & [] & H3 & H). apply fmodify_inv in H as ->.
  assert (E3 : fend f3 = fend f2 /\ f_dir f3 = f_dir f2).
  { unfold key_write in H3. apply fbind_inv in H3 as (f4 & [] & H4 & H3).
    assert (f4 = f2) as -> by (unfold fwriter in H4; destruct (f_io f2); try discriminate; injection H4 as Q; congruence).
    clear H4. apply fbind_inv in H3 as (f4 & ? & H4 & H3). apply flift_inv in H4 as [-> _].
    apply fbind_inv in H3 as (f4 & [] & H4 & H3). apply fend_write in H4 as [A1 A2]. apply fend_write in H3 as [B1 B2]. split; congruence. }
  destruct E3 as [E3 E4]. exists (k_set_cycle k (to_i16 cy')).
  change (d_keys (f_dir (f_set_dir f3 (d_set_keys (f_dir f3) (d_keys (f_dir f3) ++ [k_set_cycle k (to_i16 cy')])))))
    with (d_keys (f_dir f3) ++ [k_set_cycle k (to_i16 cy')]).
  change (fend (f_set_dir f3 (d_set_keys (f_dir f3) (d_keys (f_dir f3) ++ [k_set_cycle k (to_i16 cy')])))) with (fend f3).
  change (k_seek (k_set_cycle k (to_i16 cy'))) with (k_seek k). change (k_nbytes (k_set_cycle k (to_i16 cy'))) with (k_nbytes k).
  split; [congruence|]. split; congruence.
Qed.

Lemma fiter_ends l : forall f f' x, fiter add_sinfo l f = (f', Ok x) -> fend f' = fend f /\ f_dir f' = f_dir f.
Proof.
  clear db. intros f f' x H. destruct (fiter_add_sinfo l f f' (Ok x) H) as (-> & _). split; reflexivity.
Qed.

Lemma tree_ends w f f' w' : tree_write db w f = (f', Ok w') -> all_parts (wt_cols w) = [] -> Forall even (wt_cols w) ->
  exists k, d_keys (f_dir f') = d_keys (f_dir f) ++ [k] /\
    forall x, hits x ((k_seek k, k_nbytes k) :: all_parts (wt_cols w')) = from x (fend f) - from x (fend f').
Proof.
  intros H P0 E0. unfold tree_write in H. cbv zeta in H.
  apply fbind_inv in H as (f1 & [[t' cols] ev] & H1 & H). apply fbind_inv in H as (f2 & cols' & H2 & H). injection H as <- <-.
  apply rows_steps in H1. rewrite map_map in H1. cbn [fst] in H1. rewrite map_id in H1. destruct (H1 E0) as (E1 & A1 & D1). rewrite P0 in A1.
  unfold tree_close in H2. apply fbind_inv in H2 as (f3 & cols2 & HF & H2). apply fbind_inv in H2 as (f4 & [] & HP & H2).
  apply flush_all_steps in HF. destruct (HF E1) as (_ & A2 & D2). apply put_ends in HP as (k & K1 & K2 & K3).
  destruct (wt_sinfos w) as [l|]; [|discriminate]. apply fbind_inv in H2 as (f5 & x & HI & H2). injection H2 as <- <-.
  apply fiter_ends in HI as (I1 & I2). exists k. split; [rewrite I2, K1, D2, D1; reflexivity|]. cbn [wt_cols].
  intros y. cbn [hits fold_right fst snd]. fold (hits y (all_parts cols2)). rewrite A2, A1. cbn [hits fold_right]. rewrite I1, K2, K3. lia.
Qed.

End DB.

(** ** The session *)
Definition kc_parts (kc : key * list wcol) : list (Z * Z) := (k_seek (fst kc), k_nbytes (fst kc)) :: all_parts (snd kc).

Lemma fresh_parts ss cs : Forall2 fresh ss cs -> all_parts cs = [] /\ Forall even cs.
Proof.
  induction 1 as [|s c ss cs (_ & _ & F & _) _ (IH1 & IH2)]; [split; [reflexivity|constructor]|].
  destruct (F [] [] []) as (_ & _ & _ & (mb & tot & en & E & _) & _).
  unfold all_parts in *. cbn [flat_map]. rewrite IH1. unfold wc_parts, even. rewrite E. split; [reflexivity|].
  constructor; [|exact IH2]. unfold even. rewrite E. reflexivity.
Qed.

Definition stored_cols (path : bytes) (recs : list bytes) (p : tprog) (kc : key * list wcol) : Prop :=
  exists tot, stored_as path recs (tp_name p) (cols_of (tp_ops p)) (snd kc) tot (fst kc) /\ tree_total (cols_of (tp_ops p)) tot.

Section Session.
Variable db : bytes -> Z -> option sinfo.

Record parted (path : bytes) (ps : list tprog) (recs : list bytes) (kcs : list (key * list wcol)) (e : Z) : Prop := mkParted {
  pt_st : Forall2 (stored_cols path recs) ps kcs;
  pt_cut : Forall2 (fun p kc => Forall2 cut_up (cols_of (tp_ops p)) (snd kc)) ps kcs;
  pt_hits : forall x, hits x (flat_map kc_parts kcs) = from x (E0 path) - from x e }.

Lemma lay_end path keys sis recs f : lay path keys sis recs f -> fend f = E0 path + rsize recs /\ d_keys (f_dir f) = keys.
Proof. clear db. intros (log & -> & _). split; reflexivity. Qed.

Lemma trees_parted path ps' : path_ok path -> Forall tprog_ok ps' -> forall ps es keys sis recs kcs f f' es',
  sess db path ps es keys sis recs f -> keys = map fst kcs -> parted path ps recs kcs (fend f) ->
  write_trees db ps' f = (f', Ok es') -> zlen (f_disk f') <= kStartBigFile ->
  exists kcs' sis' recs', sess db path (ps ++ ps') (es ++ es') (map fst kcs') sis' recs' f' /\ parted path (ps ++ ps') recs' kcs' (fend f').
Proof.
  intros P. induction 1 as [|p ps' T _ IH]; intros ps es keys sis recs kcs f f' es' S KE PT H D; cbn [write_trees] in H.
  - injection H as <- <-. exists kcs, sis, recs. rewrite !app_nil_r, <- KE. split; [exact S|exact PT].
  - apply fbind_inv in H as (f1 & e & H1 & H). apply fbind_inv in H as (f2 & es2 & H2 & H). injection H as <- <-.
    assert (D1 : zlen (f_disk f1) <= kStartBigFile).
    { eapply Z.le_trans; [|exact D]. eapply mono_disk; [|exact H2]. apply mono_write_trees. }
    destruct (write_one_all _ _ _ _ _ _ _ _ _ _ _ P S T H1 D1) as (k1 & s1 & r1 & S1 & G1 & w & w' & k & B & TW & KK & ST).
    destruct T as (_ & TC).
    assert (CT : Forall (fun s => col_ty (cs_ty s)) (cols_of (tp_ops p))).
    { eapply Forall_impl; [|exact TC]. intros s (X & _). exact X. }
    destruct (build_ok _ _ _ CT B [] eq_refl) as (B1 & _ & _ & _ & cs & B6 & B7).
    cbn [wtree_new wt_cols app] in B6. destruct (fresh_parts _ _ B7) as (F1 & F2). rewrite <- B6 in F1, F2.
    destruct (tree_ends db _ _ _ _ TW F1 F2) as (k' & K1 & K2).
    destruct (lay_end _ _ _ _ _ (se_lay _ _ _ _ _ _ _ _ S)) as (E1 & E2). destruct (lay_end _ _ _ _ _ (se_lay _ _ _ _ _ _ _ _ S1)) as (E3 & E4).
    assert (k' = k) as ->. { rewrite E4, E2, KK in K1. apply app_inj_tail in K1 as [_ <-]. reflexivity. }
    destruct (IH _ _ _ _ _ (kcs ++ [(k, wt_cols w')]) _ f2 es2 S1) as (kcs' & sis' & recs' & S2 & PT2).
    + rewrite KK, map_app, KE. reflexivity.
    + constructor.
      * apply Forall2_app; [|constructor; [exists (t_tot (wt_tree w')); split; [exact ST|apply (tree_counts db _ w f f1); [now rewrite B6|rewrite B1; reflexivity|exact TW]]|constructor]].
        eapply Forall2_weaken; [|exact (pt_st _ _ _ _ _ PT)]. intros a b (tt & Q1 & Q2). exists tt. split; [eapply stored_as_grows; [exact G1|exact Q1]|exact Q2].
      * apply Forall2_app; [exact (pt_cut _ _ _ _ _ PT)|]. constructor; [|constructor]. cbn [snd]. apply (tree_cut db _ w f f1); [now rewrite B6|exact TW].
      * intros x. rewrite flat_map_app, hits_app, (pt_hits _ _ _ _ _ PT). cbn [flat_map]. rewrite app_nil_r. unfold kc_parts at 1. cbn [fst snd].
        rewrite K2. lia.
    + exact H2.
    + exact D.
    + exists kcs', sis', recs'. rewrite <- !app_assoc in S2. rewrite <- app_assoc in PT2. split; [exact S2|exact PT2].
Qed.
End Session.
