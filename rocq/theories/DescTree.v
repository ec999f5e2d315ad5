(** Trees against the description-driven reader of [SpecDesc.v]: class by class. *)
From Verif Require Import Base Bytes Utf8 RBuf WBuf Codec ObjAny Obj Streamer StreamerDb RObj TreeObj File SpecDesc DescFacts.

(** The classes of which trees are made. *)
Definition tree_classes : list bytes :=
  [bs "TNamed"; bs "TAttLine"; bs "TAttFill"; bs "TAttMarker"; bs "ROOT::TIOFeatures"; bs "TObjArray"; bs "TLeaf";
   bs "TLeafElement"; bs "TLeafI"; bs "TLeafS"; bs "TLeafD"; bs "TLeafF"; bs "TLeafB"; bs "TLeafL"; bs "TLeafC"; bs "TLeafO";
   bs "TBranch"; bs "TBranchElement"; bs "TTree"].

Definition i16 := LNum true 2. Definition i32 := LNum true 4. Definition i64 := LNum true 8.
Definition d_named := mkDesc 1 [(bs "TObject", LInside (bs "TObject")); (bs "fName", LText); (bs "fTitle", LText)].
Definition d_line := mkDesc 2 [(bs "fLineColor", i16); (bs "fLineStyle", i16); (bs "fLineWidth", i16)].
Definition d_fill := mkDesc 2 [(bs "fFillColor", i16); (bs "fFillStyle", i16)].
Definition d_marker := mkDesc 2 [(bs "fMarkerColor", i16); (bs "fMarkerStyle", i16); (bs "fMarkerSize", LNum false 4)].
Definition d_io := mkDesc 1 [(bs "fIOBits", LNum false 1)].
Definition d_tleaf := mkDesc 2
  [(bs "TNamed", LInside (bs "TNamed")); (bs "fLen", i32); (bs "fLenType", i32); (bs "fOffset", i32);
   (bs "fIsRange", LNum false 1); (bs "fIsUnsigned", LNum false 1); (bs "fLeafCount", LPointer)].
Definition bound_layout (k : lkind) : layout :=
  match k with
  | LKBase | LKElement | LKI | LKC => i32 | LKS => i16 | LKD => LNum false 8 | LKF => LNum false 4
  | LKB => LNum true 1 | LKL => i64 | LKO => LNum false 1
  end.
Definition bound_names (k : lkind) : bytes * bytes :=
  match k with LKElement => (bs "fID", bs "fType") | _ => (bs "fMinimum", bs "fMaximum") end.
Definition d_leaf (k : lkind) := mkDesc 1
  [(bs "TLeaf", LInside (bs "TLeaf")); (fst (bound_names k), bound_layout k); (snd (bound_names k), bound_layout k)].
Definition d_branch := mkDesc 13
  [(bs "TNamed", LInside (bs "TNamed")); (bs "TAttFill", LInside (bs "TAttFill")); (bs "fCompress", i32);
   (bs "fBasketSize", i32); (bs "fEntryOffsetLen", i32); (bs "fWriteBasket", i32); (bs "fEntryNumber", i64);
   (bs "fIOFeatures", LInside (bs "ROOT::TIOFeatures")); (bs "fOffset", i32); (bs "fMaxBaskets", i32); (bs "fSplitLevel", i32);
   (bs "fEntries", i64); (bs "fFirstEntry", i64); (bs "fTotBytes", i64); (bs "fZipBytes", i64);
   (bs "fBranches", LInside (bs "TObjArray")); (bs "fLeaves", LInside (bs "TObjArray")); (bs "fBaskets", LInside (bs "TObjArray"));
   (bs "fBasketBytes", LArray true 4 (bs "fMaxBaskets")); (bs "fBasketEntry", LArray true 8 (bs "fMaxBaskets"));
   (bs "fBasketSeek", LArray true 8 (bs "fMaxBaskets")); (bs "fFileName", LText)].
Definition d_element := mkDesc 10
  [(bs "TBranch", LInside (bs "TBranch")); (bs "fClassName", LText); (bs "fParentName", LText); (bs "fClonesName", LText);
   (bs "fCheckSum", LNum false 4); (bs "fClassVersion", i16); (bs "fID", i32); (bs "fType", i32); (bs "fStreamerType", i32);
   (bs "fMaximum", i32); (bs "fBranchCount", LPointer); (bs "fBranchCount2", LPointer)].
Definition d_tree := mkDesc 20
  [(bs "TNamed", LInside (bs "TNamed")); (bs "TAttLine", LInside (bs "TAttLine")); (bs "TAttFill", LInside (bs "TAttFill"));
   (bs "TAttMarker", LInside (bs "TAttMarker")); (bs "fEntries", i64); (bs "fTotBytes", i64); (bs "fZipBytes", i64);
   (bs "fSavedBytes", i64); (bs "fFlushedBytes", i64); (bs "fWeight", LNum false 8); (bs "fTimerInterval", i32);
   (bs "fScanField", i32); (bs "fUpdate", i32); (bs "fDefaultEntryOffsetLen", i32); (bs "fNClusterRange", i32);
   (bs "fMaxEntries", i64); (bs "fMaxEntryLoop", i64); (bs "fMaxVirtualSize", i64); (bs "fAutoSave", i64);
   (bs "fAutoFlush", i64); (bs "fEstimate", i64);
   (bs "fClusterRangeEnd", LArray true 8 (bs "fNClusterRange")); (bs "fClusterSize", LArray true 8 (bs "fNClusterRange"));
   (bs "fIOFeatures", LInside (bs "ROOT::TIOFeatures")); (bs "fBranches", LInside (bs "TObjArray"));
   (bs "fLeaves", LInside (bs "TObjArray")); (bs "fAliases", LPointer); (bs "fIndexValues", LInside (bs "TArrayD"));
   (bs "fIndex", LInside (bs "TArrayI")); (bs "fTreeIndex", LPointer); (bs "fFriends", LPointer); (bs "fUserInfo", LPointer);
   (bs "fBranchRef", LPointer)].

Lemma table_descs :
  described_in table (bs "TNamed") = Some d_named /\ described_in table (bs "TAttLine") = Some d_line /\
  described_in table (bs "TAttFill") = Some d_fill /\ described_in table (bs "TAttMarker") = Some d_marker /\
  described_in table (bs "ROOT::TIOFeatures") = Some d_io /\ described_in table (bs "TLeaf") = Some d_tleaf /\
  described_in table (bs "TBranch") = Some d_branch /\ described_in table (bs "TBranchElement") = Some d_element /\
  described_in table (bs "TTree") = Some d_tree.
Proof. vm_compute. repeat split. Qed.
Lemma table_leaf k : k <> LKBase -> described_in table (leaf_class k) = Some (d_leaf k).
Proof. destruct k; intros H; try contradiction; vm_compute; reflexivity. Qed.
Lemma table_objarray : exists m, described_in table (bs "TObjArray") = Some (mkDesc 3 m).
Proof. eexists. vm_compute. reflexivity. Qed.

Section Classes.
Variable lib : bytes -> option desc.
Hypothesis Lib : forall c, In c tree_classes -> lib c = described_in table c.

Ltac known := rewrite Lib by (vm_compute; tauto); apply table_descs.

(** An object with a description. *)
Lemma gs_object {X} P n n' B A k class d (body : W X) l :
  lib class = Some d -> is_i16 (ds_version d) ->
  beqb class (bs "TObject") || beqb class (bs "TArrayD") || beqb class (bs "TArrayI") || beqb class (bs "TObjArray") = false ->
  gs n n' B A body (members (object lib k) [] (ds_members d)) l ->
  gsim P n n' B A (with_header (ds_version d) body) (object lib (S k) class) (DObject class (settle class l)).
Proof.
  intros L V N H. apply orb_false_iff in N as [N N4]. apply orb_false_iff in N as [N N3]. apply orb_false_iff in N as [N1 N2].
  cbn [object]. rewrite N1, N2, N3, L, N4. apply (gs_head _ _ _ _ _ _ _ _ (fun l => DObject class (settle class l)) V H).
Qed.
(** One member after the other. *)
Lemma gs_m {X Y} n n1 n2 B A obj env nm y ms (wm : W X) (wk : W Y) v l :
  gs n n1 [] [] wm (member obj env y) v -> gs n1 n2 B A wk (members obj (env ++ [(nm, v)]) ms) l ->
  gs n n2 B A (wm ;;; wk) (members obj env ((nm, y) :: ms)) l.
Proof. intros H1 H2. cbn [members fst snd]. eapply gs_seq0; [exact H1|exact H2]. Qed.
Lemma gs_mlast {X} P n n' B A obj env nm y (wm : W X) v l :
  gsim P n n' B A wm (member obj env y) v -> l = env ++ [(nm, v)] -> gsim P n n' B A wm (members obj env [(nm, y)]) l.
Proof. intros H ->. cbn [members fst snd]. eapply gs_last; [exact H|reflexivity]. Qed.

Lemma gs_mnum P n obj env (sg : bool) k z : (0 < k)%nat -> (if sg then in_s k z else in_u k z) ->
  gsim P n n [] [] (write_int k z) (member obj env (LNum sg k)) (DNum z).
Proof. intros N R. apply gs_pure. cbn [member]. eapply gp_last; [now apply gp_num|reflexivity]. Qed.
Lemma gs_mtext P n obj env s : str_ok s -> gsim P n n [] [] (write_string s) (member obj env LText) (DText s).
Proof. intros H. apply gs_pure. cbn [member]. eapply gp_last; [now apply gp_text|reflexivity]. Qed.
Lemma gs_mnil P n obj env : gsim P n n [] [] write_object_nil (member obj env LPointer) DNull.
Proof. apply gs_pure. apply gp_nil. Qed.

Ltac m_num := apply gs_mnum; [lia|red; cbn; unfold is_i8, is_i16, is_i32, is_i64, is_u8, is_u16, is_u32, is_u64, in_s, in_u in *; cbn in *; lia].

Lemma gs_named n k m : named_ok m -> gs n n [] [] (named_marshal m) (object lib (S (S k)) (bs "TNamed")) (v_named (named_seen m)).
Proof.
  intros (Ho & Hn & Ht). unfold named_marshal. apply gs_lm1.
  apply (gs_object _ _ _ _ _ (S k) (bs "TNamed") d_named _ _ ltac:(known) ltac:(red; cbn; lia) eq_refl).
  cbn [ds_members d_named]. eapply gs_m; [apply gs_pure; apply (gp_obj _ Ho)|].
  eapply gs_m; [now apply gs_mtext|]. eapply gs_mlast; [now apply gs_mtext|reflexivity].
Qed.
Lemma gs_line P n k a : attline_ok a -> gsim P n n [] [] (attline_marshal a) (object lib (S k) (bs "TAttLine")) (v_line a).
Proof.
  intros (H1 & H2 & H3). unfold attline_marshal.
  apply (gs_object _ _ _ _ _ k (bs "TAttLine") d_line _ _ ltac:(known) ltac:(red; cbn; lia) eq_refl).
  cbn [ds_members d_line]. eapply gs_m; [m_num|]. eapply gs_m; [m_num|]. eapply gs_mlast; [m_num|reflexivity].
Qed.
Lemma gs_fill P n k a : attfill_ok a -> gsim P n n [] [] (attfill_marshal a) (object lib (S k) (bs "TAttFill")) (v_fill a).
Proof.
  intros (H1 & H2). unfold attfill_marshal.
  apply (gs_object _ _ _ _ _ k (bs "TAttFill") d_fill _ _ ltac:(known) ltac:(red; cbn; lia) eq_refl).
  cbn [ds_members d_fill]. eapply gs_m; [m_num|]. eapply gs_mlast; [m_num|reflexivity].
Qed.
Lemma gs_marker P n k a : attmarker_ok a -> gsim P n n [] [] (attmarker_marshal a) (object lib (S k) (bs "TAttMarker")) (v_marker a).
Proof.
  intros (H1 & H2 & H3). unfold attmarker_marshal.
  apply (gs_object _ _ _ _ _ k (bs "TAttMarker") d_marker _ _ ltac:(known) ltac:(red; cbn; lia) eq_refl).
  cbn [ds_members d_marker]. eapply gs_m; [m_num|]. eapply gs_m; [m_num|]. eapply gs_mlast; [m_num|reflexivity].
Qed.
Lemma gs_io P n k : gsim P n n [] [] (iobits_marshal 0) (object lib (S k) (bs "ROOT::TIOFeatures")) (v_io 0).
Proof.
  unfold iobits_marshal. change (negb (0 =? 0)) with false. cbv iota.
  apply (gs_object _ _ _ _ _ k (bs "ROOT::TIOFeatures") d_io _ _ ltac:(known) ltac:(red; cbn; lia) eq_refl).
  cbn [ds_members d_io].
  eapply gs_wext; [intros s _; exists (fun x => x)|eapply gs_mlast; [apply (gs_mnum nonempty n _ _ false 1 0); [lia|red; cbn; lia]|reflexivity]].
  reflexivity.
Qed.

(** Lists of pointers. *)
Lemma gs_objarray P n n' B A k (items : list (W unit)) vs :
  zlen items < 2 ^ 31 ->
  gs n n' B A (iterM (fun m => m) items) (repeatM (length items) (pointer (object lib k))) vs ->
  gsim P n n' B A (objarray_marshal None items) (object lib (S k) (bs "TObjArray")) (v_array vs).
Proof.
  intros L H. destruct table_objarray as (m & Em). assert (El : lib (bs "TObjArray") = Some (mkDesc 3 m)).
  { rewrite Lib by (vm_compute; tauto). exact Em. }
  cbn [object]. change (beqb (bs "TObjArray") (bs "TObject")) with false. change (beqb (bs "TObjArray") (bs "TArrayD")) with false.
  change (beqb (bs "TObjArray") (bs "TArrayI")) with false. change (beqb (bs "TObjArray") (bs "TObjArray")) with true. cbv iota.
  rewrite El. cbn [ds_version]. pose proof (zlen_nonneg items) as Z0.
  apply (gs_head _ _ _ _ 3 _ (tobjarray (object lib k))
    [(bs "TObject", v_obj (Obj.mkObj 0 50331648)); (bs "fName", DText []); (bs "fLowerBound", DNum 0); (bs "items", DItems vs)]
    (fun l => DObject (bs "TObjArray") (settle (bs "TObjArray") l))); [red; lia|].
  unfold tobjarray.
  eapply gs_seq0; [apply gs_pure, gp_obj, obj_default_ok|].
  eapply gs_seq0; [apply gs_pure, gp_text, str_ok_nil|].
  eapply gs_seq0; [apply gs_pure, (gp_num true 4 (zlen items)); [lia|red; cbn; lia]|].
  eapply gs_seq0; [apply gs_pure, (gp_num true 4 0); [lia|red; cbn; lia]|]. cbv beta.
  rewrite zlen_to_nat. eapply gs_last; [exact H|reflexivity].
Qed.
Lemma gs_items_nil n B obj : gs n n B [] (iterM (fun m : W unit => m) []) (repeatM 0 (pointer obj)) [].
Proof.
  intros s Hp Ho HA HB. destruct (gs_pure nonempty n _ _ _ (gp_ret (@nil dval)) s Hp Ho HA (fun a (F : In a []) => match F with end)) as (x & s' & w & E1 & E2 & E3 & E4 & E5 & R).
  exists x, s', w. do 5 (split; [assumption|]). intros L c rest Ci _ Cn T. exact (R L c rest Ci (knows_nil _ _) Cn T).
Qed.

(** ** Leaves *)
Lemma gs_tleaf n k t : tleaf_ok t -> gs n n [] [] (tleaf_marshal t) (object lib (S (S (S k))) (bs "TLeaf")) (v_tleaf (tleaf_seen t)).
Proof.
  intros (Hn & H1 & H2 & H3). unfold tleaf_marshal. apply gs_lm1.
  assert (E : v_tleaf (tleaf_seen t) = DObject (bs "TLeaf") (settle (bs "TLeaf")
    [(bs "TNamed", v_named (named_seen (tl_named t))); (bs "fLen", DNum (tl_len t)); (bs "fLenType", DNum (tl_etype t));
     (bs "fOffset", DNum (tl_offset t)); (bs "fIsRange", DNum (bit (tl_hasrange t))); (bs "fIsUnsigned", DNum (bit (tl_unsigned t)));
     (bs "fLeafCount", DNull)])).
  { unfold v_tleaf, tleaf_seen. cbn [tl_named tl_len tl_etype tl_offset tl_hasrange tl_unsigned].
    assert (Es : forall z, (if z =? 0 then DNum 1 else DNum z) = match z with 0 => DNum 1 | z => DNum z end) by (intros [| |]; reflexivity).
    f_equal. destruct (tl_len t) as [|p|p]; reflexivity. }
  rewrite E. apply (gs_object _ _ _ _ _ (S (S k)) (bs "TLeaf") d_tleaf _ _ ltac:(known) ltac:(red; cbn; lia) eq_refl).
  cbn [ds_members d_tleaf]. eapply gs_m; [now apply gs_named|]. do 3 (eapply gs_m; [m_num|]).
  unfold write_bool. eapply gs_m; [apply (gs_mnum _ _ _ _ false 1 (if tl_hasrange t then 1 else 0)); [lia|destruct (tl_hasrange t); red; cbn; lia]|].
  eapply gs_m; [apply (gs_mnum _ _ _ _ false 1 (if tl_unsigned t then 1 else 0)); [lia|destruct (tl_unsigned t); red; cbn; lia]|].
  eapply gs_mlast; [apply gs_mnil|reflexivity].
Qed.
Lemma gs_bound P n obj env k z : k <> LKBase -> bound_ok k z ->
  gsim P n n [] [] (write_bound k z) (member obj env (bound_layout k)) (DNum z).
Proof.
  intros K H. destruct k; try contradiction; cbn [bound_layout write_bound bound_ok] in *; try m_num.
  unfold write_bool. assert (E : (if negb (z =? 0) then 1 else 0) = z) by (destruct H as [-> | ->]; reflexivity).
  rewrite E. apply gs_mnum; [lia|red; cbn; lia].
Qed.
Lemma gs_leaf n k l : leaf_ok l ->
  gs n n [] [] (leaf_marshal l) (object lib (S (S (S (S k)))) (leaf_class (lf_kind l))) (v_leaf (leaf_seen l)).
Proof.
  intros (K & Ht & Ha & Hb).
  assert (G : gs n n [] [] (with_header 1 (tleaf_marshal (lf_t l) ;;; write_bound (lf_kind l) (lf_a l) ;;; write_bound (lf_kind l) (lf_b l)))
    (object lib (S (S (S (S k)))) (leaf_class (lf_kind l))) (v_leaf (leaf_seen l))).
  { assert (El : lib (leaf_class (lf_kind l)) = Some (d_leaf (lf_kind l))).
    { rewrite Lib; [now apply table_leaf|]. destruct (lf_kind l); vm_compute; tauto. }
    assert (Ev : v_leaf (leaf_seen l) = DObject (leaf_class (lf_kind l)) (settle (leaf_class (lf_kind l))
      [(bs "TLeaf", v_tleaf (tleaf_seen (lf_t l))); (fst (bound_names (lf_kind l)), DNum (lf_a l)); (snd (bound_names (lf_kind l)), DNum (lf_b l))])).
    { unfold v_leaf, leaf_seen. cbn [lf_kind lf_t lf_a lf_b]. destruct (lf_kind l); try contradiction; reflexivity. }
    rewrite Ev. apply (gs_object _ _ _ _ _ (S (S (S k))) _ _ _ _ El ltac:(red; cbn; lia)); [destruct (lf_kind l); try contradiction; reflexivity|].
    cbn [ds_members d_leaf]. eapply gs_m; [now apply gs_tleaf|]. eapply gs_m; [now apply gs_bound|]. eapply gs_mlast; [now apply gs_bound|reflexivity]. }
  unfold leaf_marshal. destruct (lf_kind l); try contradiction; apply gs_lm1; exact G.
Qed.

(** The leaves of a branch, by their addresses. *)
Fixpoint known_leaves (n : nat) (ls : list (Z * leaf)) : list (Z * dval) :=
  match ls with [] => [] | al :: r => (fst al, DPtr n (v_leaf (leaf_seen (snd al)))) :: known_leaves (S n) r end.
Lemma known_leaves_fst n ls : map fst (known_leaves n ls) = map fst ls.
Proof. revert n. induction ls as [|al r IH]; intros n; [reflexivity|]. cbn [known_leaves map fst]. now rewrite IH. Qed.

Lemma gs_items {T} (item : T -> W unit) obj n n1 n2 B1 A1 B2 A2 B t r v vs :
  gs n n1 B1 A1 (item t) (pointer obj) v ->
  gs n1 n2 B2 A2 (iterM (fun m => m) (map item r)) (repeatM (length (map item r)) (pointer obj)) vs ->
  incl B1 B -> incl B2 (A1 ++ B) -> (forall a, In a (map fst A1) -> ~ In a (map fst A2)) ->
  gs n n2 B (A1 ++ A2) (iterM (fun m => m) (map item (t :: r))) (repeatM (length (map item (t :: r))) (pointer obj)) (v :: vs).
Proof.
  intros H1 H2 I1 I2 D. cbn [map iterM length repeatM]. eapply gs_seq; [exact H1| |exact I1|exact I2|exact D].
  eapply gs_last; [exact H2|reflexivity].
Qed.

Lemma gs_leaf_items n k ls : Forall (fun al => leaf_ok (snd al)) ls -> NoDup (map fst ls) ->
  gs n (n + length ls) [] (known_leaves n ls) (iterM (fun m => m) (map leaf_item ls))
    (repeatM (length (map leaf_item ls)) (pointer (object lib (S (S (S (S k)))))))
    (v_leaves n (map (fun al => leaf_seen (snd al)) ls)).
Proof.
  intros F. revert n. induction F as [|al r Hl Hr IH]; intros n ND.
  - cbn [length]. rewrite Nat.add_0_r. apply gs_items_nil.
  - inversion ND as [|a l Na NDr]; subst.
    replace (n + length (al :: r))%nat with (S n + length r)%nat by (cbn [length]; lia).
    change (known_leaves n (al :: r)) with ([(fst al, DPtr n (v_leaf (leaf_seen (snd al))))] ++ known_leaves (S n) r).
    eapply gs_items with (n1 := S n) (B1 := []) (B2 := []).
    + unfold leaf_item. apply gs_unit. eapply gs_new.
      * destruct (leaf_class_cname (lf_kind (snd al))); assumption.
      * intros [].
      * intros [].
      * now apply gs_leaf.
    + now apply IH.
    + intros x [].
    + intros x [].
    + intros a [<-|[]]. rewrite known_leaves_fst. exact Na.
Qed.

Lemma gs_seq_m {X Y} n n1 n2 A1 A2 B obj env nm y ms (wm : W X) (wk : W Y) v l :
  gs n n1 [] A1 wm (member obj env y) v -> gs n1 n2 B A2 wk (members obj (env ++ [(nm, v)]) ms) l ->
  incl B A1 -> (forall a, In a (map fst A1) -> ~ In a (map fst A2)) ->
  gs n n2 [] (A1 ++ A2) (wm ;;; wk) (members obj env ((nm, y) :: ms)) l.
Proof.
  intros H1 H2 I D. cbn [members fst snd]. eapply gs_seq; [exact H1|exact H2|intros x []| |exact D]. rewrite app_nil_r. exact I.
Qed.
Lemma gs_mpad P n obj env (sg : bool) k (v : list Z) j m count :
  (0 < k)%nat -> Forall (fun z => if sg then in_s k z else in_u k z) v -> zlen v = j -> j <= m -> field env count = Some (DNum m) ->
  gsim P n n [] [] (write_padded (write_int k) v j m) (member obj env (LArray sg k count)) (DNums (padded m v)).
Proof. intros. apply gs_pure. now apply gp_padded. Qed.
Lemma gs_empty P n k : gsim P n n [] [] (objarray_marshal None []) (object lib (S k) (bs "TObjArray")) (v_array []).
Proof. apply gs_objarray; [rewrite (@zlen_nil (W unit)); lia|]. apply gs_items_nil. Qed.

(** ** Branches *)
Lemma gs_tbranch n k c ls :
  bcore_ok c -> b_iobits c = 0 -> Forall (fun al => leaf_ok (snd al)) ls -> NoDup (map fst ls) -> zlen ls < 2 ^ 31 ->
  gs n (n + length ls) [] (known_leaves n ls) (tbranch_marshal c ls) (object lib (S (S (S (S (S (S k)))))) (bs "TBranch"))
    (v_branch n (bcore_seen c) (map (fun al => leaf_seen (snd al)) ls)).
Proof.
  intros (Hn & Hf & H1 & H2 & H3 & Hwb & H4 & H5 & H6 & H7 & H8 & H9 & H10 & H11
          & Lb & Fb & Le & Fe & Ls & Fs & Hfn) Hio Hls ND Hll.
  assert (Hm : 10 <= max_baskets c /\ b_wb c + 1 <= max_baskets c /\ is_i32 (max_baskets c)).
  { unfold max_baskets. destruct (Z.ltb_spec (b_wb c + 1) 10); unfold is_i32; lia. }
  destruct Hm as (Hm1 & Hm2 & Hm3). assert (Hw : is_i32 (b_wb c)) by (red; lia).
  unfold tbranch_marshal. apply gs_lm1. apply gs_counted. cbv zeta.
  apply (gs_object _ _ _ _ _ _ (bs "TBranch") d_branch _ _ ltac:(known) ltac:(red; cbn; lia) eq_refl).
  cbn [ds_members d_branch].
  eapply gs_m; [now apply gs_named|]. eapply gs_m; [now apply gs_fill|].
  do 5 (eapply gs_m; [m_num|]).
  eapply gs_m; [rewrite Hio; apply gs_io|].
  do 7 (eapply gs_m; [m_num|]).
  eapply gs_m; [apply gs_empty|].
  rewrite <- (app_nil_r (known_leaves n ls)).
  eapply gs_seq_m with (B := []); [apply gs_objarray; [now rewrite zlen_map|now apply gs_leaf_items]| |intros x []|intros a _ []].
  eapply gs_m; [apply gs_empty|].
  eapply gs_m; [apply gs_mpad; [lia|exact Fb|exact Lb|lia|reflexivity]|].
  eapply gs_m; [apply gs_mpad; [lia|exact Fe|exact Le|lia|reflexivity]|].
  eapply gs_m; [apply gs_mpad; [lia|exact Fs|exact Ls|lia|reflexivity]|].
  eapply gs_mlast; [now apply gs_mtext|]. cbn [app]. unfold bcore_seen. cbn [b_iobits]. rewrite Hio. reflexivity.
Qed.

Lemma gs_wbr n k b : wbr_ok b -> b_iobits (wb_core b) = 0 ->
  gs n (n + length (wb_leaves b)) [] (known_leaves n (wb_leaves b)) (wbr_marshal b)
    (object lib (S (S (S (S (S (S (S k))))))) (wb_class b)) (v_any_branch n (wbr_seen b)).
Proof.
  destruct b as [c e ls]. intros (Hc & He & Hl & ND & Hz) Hio. unfold wbr_addrs in *. cbn [wb_core wb_elem wb_leaves] in *.
  unfold wbr_marshal, wbr_seen, wb_class, v_any_branch; cbn [wb_core wb_elem wb_leaves br_core br_elem br_leaves].
  destruct e as [e|]; [|now apply gs_tbranch].
  specialize (He e eq_refl). destruct e as [k1 k2 k3 z1 z2 z3 z4 z5 z6].
  destruct He as (G1 & G2 & G3 & G4 & G5 & G6 & G7 & G8 & G9).
  cbn [be_class be_parent be_clones be_chksum be_clsver be_id be_btype be_stype be_max] in *.
  apply gs_counted.
  apply (gs_object _ _ _ _ _ _ (bs "TBranchElement") d_element _ _ ltac:(known) ltac:(red; cbn; lia) eq_refl).
  cbn [ds_members d_element]. rewrite <- (app_nil_r (known_leaves n ls)).
  eapply gs_seq_m with (B := []); [now apply gs_tbranch| |intros x []|intros a _ []].
  do 3 (eapply gs_m; [now apply gs_mtext|]).
  eapply gs_m with (v := DNum (z1 mod 2 ^ 32)).
  { eapply gs_wext; [|apply (gs_mnum nonempty _ _ _ false 4 (z1 mod 2 ^ 32)); [lia|]].
    - intros s _. exists (fun x => x). unfold write_i32, write_int, put. rewrite (be_mod 4 z1 : be 4 (z1 mod 2 ^ 32) = be 4 z1). reflexivity.
    - red. change (256 ^ Z.of_nat 4) with (2 ^ 32). apply Z.mod_pos_bound. lia. }
  eapply gs_m with (v := DNum z2).
  { eapply gs_wext; [|apply (gs_mnum nonempty _ _ _ true 2 z2); [lia|exact G5]].
    intros s _. exists (fun x => x). unfold write_u16, write_int, put, to_u16, wrap_u. rewrite be_mod. reflexivity. }
  do 4 (eapply gs_m; [m_num|]). eapply gs_m; [apply gs_mnil|]. eapply gs_mlast; [apply gs_mnil|reflexivity].
Qed.

Lemma nd_app {T} (u w : list T) : NoDup (u ++ w) -> NoDup u /\ NoDup w /\ forall a, In a u -> ~ In a w.
Proof.
  induction u as [|x u IH]; cbn [app]; intros H; [split; [constructor|split; [exact H|intros a []]]|].
  inversion H as [|y l N ND]; subst. destruct (IH ND) as (A & B & C). split; [constructor; [|exact A]|split; [exact B|]].
  - intros F. apply N, in_app_iff. now left.
  - intros a [<-|I]; [|now apply C]. intros F. apply N, in_app_iff. now right.
Qed.

(** The branches of a tree and their leaves, by their addresses. *)
Fixpoint known_branches (n : nat) (l : list (Z * wbr)) : list (Z * dval) :=
  match l with
  | [] => []
  | ab :: r =>
      ((fst ab, DPtr n (v_any_branch (S n) (wbr_seen (snd ab)))) :: known_leaves (S n) (wb_leaves (snd ab)))
      ++ known_branches (S n + length (wb_leaves (snd ab))) r
  end.
Lemma known_branches_fst n l : map fst (known_branches n l) = flat_map branch_addrs l.
Proof.
  revert n. induction l as [|ab r IH]; intros n; [reflexivity|]. cbn [known_branches flat_map]. rewrite map_app, IH.
  cbn [map fst]. rewrite known_leaves_fst. reflexivity.
Qed.
Definition all_met (n : nat) (l : list (Z * wbr)) : nat :=
  fold_left (fun n ab => S n + length (wb_leaves (snd ab)))%nat l n.

Lemma gs_branch_items k l : Forall (fun ab => wbr_ok (snd ab) /\ b_iobits (wb_core (snd ab)) = 0) l ->
  forall n, NoDup (flat_map branch_addrs l) ->
  gs n (all_met n l) [] (known_branches n l) (iterM (fun m => m) (map branch_item l))
    (repeatM (length (map branch_item l)) (pointer (object lib (S (S (S (S (S (S (S k))))))))))
    (v_branches n (map (fun ab => wbr_seen (snd ab)) l)).
Proof.
  induction 1 as [|ab r [Hb Hio] Hr IH]; intros n ND; [apply gs_items_nil|].
  cbn [flat_map] in ND. cbn [known_branches map v_branches all_met fold_left].
  destruct (nd_app _ _ ND) as (NDb & NDr & D). unfold branch_addrs in NDb.
  inversion NDb as [|a0 l0 Na NDl]; subst.
  assert (Ln : length (br_leaves (wbr_seen (snd ab))) = length (wb_leaves (snd ab))) by (unfold wbr_seen; cbn [br_leaves]; apply map_length).
  eapply gs_items with (n1 := (S n + length (wb_leaves (snd ab)))%nat) (B1 := []) (B2 := []).
  - unfold branch_item. apply gs_unit. eapply gs_new.
    + apply wb_class_cname.
    + rewrite known_leaves_fst. exact Na.
    + intros [].
    + now apply gs_wbr.
  - rewrite Ln. now apply IH.
  - intros x [].
  - intros x [].
  - intros a Ha. rewrite known_branches_fst. apply D. cbn [map fst] in Ha. rewrite known_leaves_fst in Ha. exact Ha.
Qed.

(** The leaves again. *)
Fixpoint leaves_of (n : nat) (l : list (Z * wbr)) : list (Z * dval) :=
  match l with
  | [] => []
  | ab :: r => known_leaves (S n) (wb_leaves (snd ab)) ++ leaves_of (S n + length (wb_leaves (snd ab))) r
  end.
Lemma leaves_of_incl n l : incl (leaves_of n l) (known_branches n l).
Proof.
  revert n. induction l as [|ab r IH]; intros n x; [intros []|]. cbn [leaves_of known_branches]. rewrite !in_app_iff.
  intros [H|H]; [left; now right|right; now apply IH].
Qed.
Lemma leaves_of_fst n l : map fst (leaves_of n l) = map fst (tree_leaves l).
Proof.
  revert n. induction l as [|ab r IH]; intros n; [reflexivity|]. cbn [leaves_of tree_leaves flat_map]. rewrite !map_app, known_leaves_fst, IH. reflexivity.
Qed.
Lemma known_leaves_snd n ls : map snd (known_leaves n ls) = v_leaves n (map (fun al => leaf_seen (snd al)) ls).
Proof. revert n. induction ls as [|al r IH]; intros n; [reflexivity|]. cbn [known_leaves map snd v_leaves]. now rewrite IH. Qed.
Lemma leaves_of_snd n l : map snd (leaves_of n l) = v_all_leaves n (map (fun ab => wbr_seen (snd ab)) l).
Proof.
  revert n. induction l as [|ab r IH]; intros n; [reflexivity|]. cbn [leaves_of map v_all_leaves].
  rewrite map_app, known_leaves_snd, IH. unfold wbr_seen. cbn [br_leaves]. rewrite map_length. reflexivity.
Qed.
Lemma gs_refs obj n (ls : list (Z * leaf)) (B : list (Z * dval)) : map fst B = map fst ls ->
  gs n n B [] (iterM (fun m => m) (map leaf_item ls)) (repeatM (length (map leaf_item ls)) (pointer obj)) (map snd B).
Proof.
  revert B. induction ls as [|al r IH]; intros [|[a v] B] E; try discriminate; [apply gs_items_nil|].
  cbn [map fst] in E. injection E as Ea Eb. cbn [snd]. change (@nil (Z * dval)) with (@nil (Z * dval) ++ []).
  eapply gs_items with (n1 := n) (B1 := [(a, v)]) (B2 := B).
  - unfold leaf_item. rewrite <- Ea. apply gs_unit, gs_ref.
  - now apply IH.
  - intros x [<-|[]]. now left.
  - intros x Hx. now right.
  - intros x [].
Qed.

(** ** Trees *)
Lemma v_branches_top n l : v_branches n (map set_top l) = v_branches n l.
Proof.
  revert n. induction l as [|b r IH]; intros n; [reflexivity|]. destruct b as [tp c e sb lv bk]. cbn [map v_branches set_top br_leaves]. now rewrite IH.
Qed.
Lemma v_all_leaves_top n l : v_all_leaves n (map set_top l) = v_all_leaves n l.
Proof.
  revert n. induction l as [|b r IH]; intros n; [reflexivity|]. destruct b as [tp c e sb lv bk]. cbn [map v_all_leaves set_top br_leaves]. now rewrite IH.
Qed.
Lemma gs_no_table P n obj env k count : gsim P n n [] [] (write_i8 0) (member obj env (LArray true k count)) (DNums []).
Proof.
  apply gs_pure. cbn [member].
  destruct (gp_num false 1 0 ltac:(lia) ltac:(red; cbn; lia)) as (w & Hw & Hg). exists w. split; [exact Hw|].
  intros c rest T. rewrite (bind_Ok _ _ _ _ _ (Hg c rest T)). reflexivity.
Qed.
Lemma gs_array_nil P n (sg : bool) k : gsim P n n [] [] write_object_nil (tarray sg k) (DNums []).
Proof.
  apply gs_pure. unfold tarray. eapply gp_last; [apply (gp_num true 4 0); [lia|red; cbn; lia]|]. reflexivity.
Qed.

(** What the trees of the library are: no cluster ranges, no feature bits. *)
Definition plain (t : tree (Z * wbr)) : Prop :=
  t_ranges t = [] /\ t_iobits t = 0 /\ Forall (fun ab => b_iobits (wb_core (snd ab)) = 0) (t_branches t).

Lemma gs_tree P k t : tree_ok t -> plain t ->
  gsim P 0 (all_met 0 (t_branches t)) [] (known_branches 0 (t_branches t)) (tree_marshal t)
    (object lib (S (S (S (S (S (S (S (S (S k))))))))) (bs "TTree")) (v_tree (tree_seen t)).
Proof.
  intros (Hn & Hl & Hf & Hm & H1 & H2 & H3 & H4 & H5 & H6 & H7 & H8 & H9 & H10 & H11 & H12 & H13 & H14 & H15 & H16 &
    L1 & L2 & F1 & F2 & Hi & Hb & Lb & Ll & ND) (R0 & I0 & FB).
  assert (S0 : t_sizes t = []).
  { rewrite R0, (@zlen_nil Z) in L2. destruct (t_sizes t) as [|z l]; [reflexivity|]. rewrite zlen_cons in L2. pose proof (zlen_nonneg l). lia. }
  unfold tree_marshal. rewrite R0, S0, I0.
  apply (gs_object _ _ _ _ _ _ (bs "TTree") d_tree _ _ ltac:(known) ltac:(red; cbn; lia) eq_refl).
  cbn [ds_members d_tree].
  eapply gs_m; [now apply gs_named|]. eapply gs_m; [now apply gs_line|]. eapply gs_m; [now apply gs_fill|]. eapply gs_m; [now apply gs_marker|].
  do 10 (eapply gs_m; [m_num|]).
  eapply gs_m; [apply (gs_mnum _ _ _ _ true 4 0); [lia|red; cbn; lia]|].
  do 6 (eapply gs_m; [m_num|]).
  assert (E0 : forall (Y : Type) (wk : W Y), (iterM write_i64 [] ;;; wk) = wk) by reflexivity.
  rewrite !E0. clear E0.
  do 2 (eapply gs_m; [apply gs_no_table|]).
  eapply gs_m; [apply gs_io|].
  assert (FO : Forall (fun ab => wbr_ok (snd ab) /\ b_iobits (wb_core (snd ab)) = 0) (t_branches t)).
  { rewrite Forall_forall in *. intros ab I. split; [now apply Hb|now apply FB]. }
  rewrite <- (app_nil_r (known_branches 0 (t_branches t))).
  eapply gs_seq_m with (B := leaves_of 0 (t_branches t));
    [apply gs_objarray; [now rewrite zlen_map|now apply gs_branch_items]| |apply leaves_of_incl|intros a _ []].
  cbn [members fst snd]. change (@nil (Z * dval)) with (@nil (Z * dval) ++ []) at 1.
  eapply gs_seq with (B1 := leaves_of 0 (t_branches t)) (B2 := []) (A1 := []) (A2 := []);
    [apply gs_objarray; [now rewrite zlen_map|apply gs_refs; apply leaves_of_fst]| |intros x Hx; exact Hx|intros x []|intros x []].
  match goal with |- gsim _ _ _ _ _ _ (v <- member ?o ?e LPointer ;; @?k v) _ => idtac end.
  eapply gs_seq0; [apply gs_mnil|]. eapply gs_seq0; [apply gs_array_nil|]. eapply gs_seq0; [apply gs_array_nil|].
  do 3 (eapply gs_seq0; [apply gs_mnil|]). eapply gs_last; [apply gs_mnil|].
  cbn [app]. rewrite leaves_of_snd. unfold tree_seen. cbn [t_ranges t_sizes t_iobits t_branches]. rewrite R0, S0, I0.
  rewrite <- (map_map (fun ab => wbr_seen (snd ab)) set_top), v_branches_top, v_all_leaves_top. reflexivity.
Qed.

(** The whole record. *)
Theorem decode_tree t keylen buf :
  tree_ok t -> plain t -> 0 <= keylen -> wrun keylen (tree_marshal t) = Ok buf -> keylen + zlen buf < 2 ^ 30 ->
  decode lib keylen (bs "TTree") buf = Some (v_tree (tree_seen t)).
Proof.
  intros Ht Hp K W L. unfold wrun in W.
  destruct (gs_tree (fun _ => True) (1 + length buf) t Ht Hp (w_new keylen) I K) as (x & s' & w & E1 & E2 & E3 & _ & _ & Q).
  { intros a _. reflexivity. }
  { intros a []. }
  rewrite E1 in W. injection W as <-. cbn [wp w_new app] in E2.
  destruct (Q ltac:(unfold wpos; rewrite E3; cbn [woff w_new]; lia) (mkCur (wp s') keylen [] [] 0) []) as (c' & Q1 & Q2 & _).
  { split; [|split]; cbn [c_at c_objects c_classes w_new wrefs].
    - unfold wpos. cbn [wp woff w_new]. rewrite (@zlen_nil Z). lia.
    - intros k v [].
    - discriminate. }
  { apply knows_nil. }
  { reflexivity. }
  { cbn [c_todo]. now rewrite app_nil_r. }
  unfold decode. change (10 + length (wp s'))%nat with (S (S (S (S (S (S (S (S (S (1 + length (wp s'))))))))))).
  rewrite Q1, Q2. reflexivity.
Qed.
End Classes.
