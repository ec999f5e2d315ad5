(** Which steps of writing can return an error.  Writing into a buffer never does;
    writing into a file that is open for writing does only where [put] refuses a name. *)
From Verif Require Export FileMono TreeSession.

(** ** Buffers *)
Definition ne {A} (r : res A) : Prop := forall e, r <> Err e.
Definition wne {S A} (m : M S A) : Prop := forall s, ne (m s).

Lemma ne_ok {A} (a : A) : ne (Ok a). Proof. discriminate. Qed.
Lemma ne_panic {A} : ne (@Panic A). Proof. discriminate. Qed.
Lemma ne_unm {A} : ne (@Unmodelled A). Proof. discriminate. Qed.
Lemma ne_fuel {A} : ne (@OutOfFuel A). Proof. discriminate. Qed.
Lemma ne_rbind {A B} (m : res A) (k : A -> res B) : ne m -> (forall a, ne (k a)) -> ne (rbind m k).
Proof. intros H1 H2. destruct m; cbn [rbind]; try discriminate; [apply H2|]. intros e' E. now apply (H1 e). Qed.
Lemma ne_run {S A} (m : M S A) s : wne m -> ne (m s). Proof. intros H. apply H. Qed.
Lemma wne_ret {S A} (a : A) : wne (@ret S A a). Proof. intros s. apply ne_ok. Qed.
Lemma wne_panic {S A} : wne (@panic S A). Proof. intros s. apply ne_panic. Qed.
Lemma wne_unm {S A} : wne (@unmodelled S A). Proof. intros s. apply ne_unm. Qed.
Lemma wne_gets {S A} (g : S -> A) : wne (gets g). Proof. intros s. apply ne_ok. Qed.
Lemma wne_modify {S} (g : S -> S) : wne (modify g). Proof. intros s. apply ne_ok. Qed.
Lemma wne_bind {S A B} (m : M S A) (k : A -> M S B) : wne m -> (forall a, wne (k a)) -> wne (bind m k).
Proof.
  intros H1 H2 s. unfold bind. specialize (H1 s). destruct (m s) as [[a s']| | | |]; try discriminate; [apply H2|].
  intros e' E. now apply (H1 e).
Qed.
Lemma wne_iter {S A} (g : A -> M S unit) l : Forall (fun a => wne (g a)) l -> wne (iterM g l).
Proof. induction 1; cbn [iterM]; [apply wne_ret|]. apply wne_bind; auto. Qed.
Lemma wne_put w : wne (put w). Proof. intros s. apply ne_ok. Qed.
Lemma wne_int n z : wne (write_int n z). Proof. apply wne_put. Qed.
Lemma wne_in_place w p : wne (write_in_place w p).
Proof. intros s. unfold write_in_place. destruct (_ && _); discriminate. Qed.
Lemma wne_len1 : wne len_minus_1.
Proof. intros s. unfold len_minus_1. destruct (_ =? _); discriminate. Qed.
Create HintDb ne.
#[export] Hint Resolve ne_ok ne_panic ne_unm ne_fuel wne_ret wne_panic wne_unm wne_gets wne_modify wne_put wne_int wne_in_place wne_len1 : ne.

Ltac all_wne := apply Forall_forall; intros.
Ltac wne :=
  repeat match goal with
  | |- wne (bind _ _) => apply wne_bind; [|intros]
  | |- wne (iterM _ _) => apply wne_iter; all_wne
  | |- wne (if _ then _ else _) => match goal with |- wne (if ?b then _ else _) => destruct b end
  | |- wne (match ?x with _ => _ end) => destruct x
  | |- wne (let _ := _ in _) => cbv zeta
  | |- wne _ => solve [auto with ne]
  | |- ne (rbind _ _) => apply ne_rbind; [|intros]
  | |- ne (if _ then _ else _) => match goal with |- ne (if ?b then _ else _) => destruct b end
  | |- ne (match ?x with _ => _ end) => destruct x
  | |- ne (let _ := _ in _) => cbv zeta
  | |- ne _ => solve [auto with ne]
  end.

Lemma wne_u8 z : wne (write_u8 z). Proof. apply wne_int. Qed.
Lemma wne_u16 z : wne (write_u16 z). Proof. apply wne_int. Qed.
Lemma wne_u32 z : wne (write_u32 z). Proof. apply wne_int. Qed.
Lemma wne_u64 z : wne (write_u64 z). Proof. apply wne_int. Qed.
Lemma wne_i8 z : wne (write_i8 z). Proof. apply wne_int. Qed.
Lemma wne_i16 z : wne (write_i16 z). Proof. apply wne_int. Qed.
Lemma wne_i32 z : wne (write_i32 z). Proof. apply wne_int. Qed.
Lemma wne_i64 z : wne (write_i64 z). Proof. apply wne_int. Qed.
Lemma wne_f32 z : wne (write_f32 z). Proof. apply wne_int. Qed.
Lemma wne_f64 z : wne (write_f64 z). Proof. apply wne_int. Qed.
Lemma wne_bool z : wne (write_bool z). Proof. apply wne_int. Qed.
Lemma wne_nil : wne write_object_nil. Proof. apply wne_int. Qed.
#[export] Hint Resolve wne_u8 wne_u16 wne_u32 wne_u64 wne_i8 wne_i16 wne_i32 wne_i64 wne_f32 wne_f64 wne_bool wne_nil : ne.
Lemma wne_string s : wne (write_string s). Proof. unfold write_string. wne. Qed.
Lemma wne_cstring s : wne (write_cstring s). Proof. unfold write_cstring. wne. Qed.
Lemma wne_header v : wne (write_header v). Proof. unfold write_header. wne. Qed.
Lemma wne_sethdr v : wne (set_header v). Proof. unfold set_header. wne. Qed.
#[export] Hint Resolve wne_string wne_cstring wne_header wne_sethdr : ne.
Lemma wne_with {X} v (m : W X) : wne m -> wne (with_header v m).
Proof. intros H. unfold with_header. wne. Qed.
Ltac wne ::=
  repeat match goal with
  | |- wne (bind _ _) => apply wne_bind; [|intros]
  | |- wne (iterM _ _) => apply wne_iter; all_wne
  | |- wne (with_header _ _) => apply wne_with
  | |- wne (if ?b then _ else _) => destruct b
  | |- wne (match ?x with _ => _ end) => destruct x
  | |- wne (let _ := _ in _) => cbv zeta
  | |- wne _ => solve [auto with ne]
  | |- ne (rbind _ _) => apply ne_rbind; [|intros]
  | |- ne (if ?b then _ else _) => destruct b
  | |- ne (match ?x with _ => _ end) => destruct x
  | |- ne (let _ := _ in _) => cbv zeta
  | |- ne _ => solve [auto with ne]
  end.
Lemma wne_class b c a m : wne m -> wne (write_class b c a m). Proof. intros H. unfold write_class. wne. Qed.
#[export] Hint Resolve wne_class : ne.
Lemma wne_any c a m : wne m -> wne (write_object_any c a m). Proof. intros H. unfold write_object_any. wne. Qed.
#[export] Hint Resolve wne_any : ne.
Lemma wne_prim p z : wne (write_prim p z). Proof. unfold write_prim. wne. Qed.
#[export] Hint Resolve wne_prim : ne.
Lemma wne_marshal t : forall v, wne (marshal t v).
Proof. induction t; intros v; cbn [marshal]; destruct v; wne. Qed.
#[export] Hint Resolve wne_marshal : ne.
Lemma wne_obj o : wne (obj_marshal o). Proof. unfold obj_marshal. wne. Qed.
#[export] Hint Resolve wne_obj : ne.
Lemma wne_named n : wne (named_marshal n). Proof. unfold named_marshal. wne. Qed.
Lemma wne_attfill n : wne (attfill_marshal n). Proof. unfold attfill_marshal. wne. Qed.
Lemma wne_attline n : wne (attline_marshal n). Proof. unfold attline_marshal. wne. Qed.
Lemma wne_attmarker n : wne (attmarker_marshal n). Proof. unfold attmarker_marshal. wne. Qed.
Lemma wne_iobits n : wne (iobits_marshal n). Proof. unfold iobits_marshal. wne. Qed.
#[export] Hint Resolve wne_named wne_attfill wne_attline wne_attmarker wne_iobits : ne.
Lemma wne_objarray n l : Forall wne l -> wne (objarray_marshal n l).
Proof. intros H. unfold objarray_marshal. apply wne_with. do 4 (apply wne_bind; [solve [wne]|intros]). now apply wne_iter. Qed.
Lemma wne_tleaf l : wne (tleaf_marshal l). Proof. unfold tleaf_marshal. wne. Qed.
#[export] Hint Resolve wne_tleaf : ne.
Lemma wne_bound k z : wne (write_bound k z). Proof. unfold write_bound. wne. Qed.
#[export] Hint Resolve wne_bound : ne.
Lemma wne_leaf l : wne (leaf_marshal l).
Proof. unfold leaf_marshal. wne. Qed.
#[export] Hint Resolve wne_leaf : ne.
Lemma wne_leaf_item l : wne (leaf_item l). Proof. unfold leaf_item. wne. Qed.
Lemma wne_padded wr v n m : (forall z, wne (wr z)) -> wne (write_padded wr v n m).
Proof. intros H. unfold write_padded. wne. Qed.
Lemma wne_items {A} (g : A -> W unit) l : (forall a, wne (g a)) -> Forall wne (map g l).
Proof. intros H. apply Forall_map. apply Forall_forall. auto. Qed.
#[export] Hint Resolve wne_leaf_item wne_padded wne_objarray wne_items Forall_nil : ne.
Lemma wne_tbranch c l : wne (tbranch_marshal c l).
Proof. unfold tbranch_marshal. wne. Qed.
#[export] Hint Resolve wne_tbranch : ne.
Lemma wne_wbr b : wne (wbr_marshal b). Proof. unfold wbr_marshal. wne. Qed.
#[export] Hint Resolve wne_wbr : ne.
Lemma wne_branch_item l : wne (branch_item l). Proof. unfold branch_item. wne. Qed.
#[export] Hint Resolve wne_branch_item : ne.
Lemma wne_tree t : wne (tree_marshal t). Proof. unfold tree_marshal. wne. Qed.
Lemma wne_date t : wne (write_date t). Proof. unfold write_date. wne. Qed.
#[export] Hint Resolve wne_tree wne_date : ne.
Lemma wne_key k : wne (key_marshal k). Proof. unfold key_marshal. wne. Qed.
#[export] Hint Resolve wne_key : ne.
Lemma wne_basket b : wne (basket_marshal b). Proof. unfold basket_marshal. wne. Qed.
#[export] Hint Resolve wne_basket : ne.
Lemma wne_leaf_write l t v : wne (leaf_write l t v). Proof. unfold leaf_write. wne. Qed.
#[export] Hint Resolve wne_leaf_write : ne.

(** ** Results *)
Lemma ne_wrun {A} off (m : W A) : wne m -> ne (wrun off m).
Proof. intros H. unfold wrun. specialize (H (w_new off)). destruct (m (w_new off)) as [[a s]| | | |]; try discriminate. intros e' E. now apply (H e). Qed.
Lemma ne_add a b : ne (add_i32 a b). Proof. unfold add_i32. wne. Qed.
Lemma ne_compress a b : ne (compress a b). Proof. unfold compress. wne. Qed.
Lemma ne_set l i x : ne (list_set l i x). Proof. unfold list_set. wne. Qed.
#[export] Hint Resolve ne_wrun ne_add ne_compress ne_set ne_run : ne.
Lemma ne_update b z : ne (basket_update b z). Proof. unfold basket_update. wne. Qed.
Lemma ne_leaf_new n t : ne (leaf_new n t). Proof. unfold leaf_new. wne. Qed.
Lemma ne_vec_sinfo t : ne (vec_sinfo t). Proof. unfold vec_sinfo. wne. Qed.
#[export] Hint Resolve ne_update ne_leaf_new ne_vec_sinfo : ne.
Lemma ne_wcol n t it : ne (wcol_new n t it). Proof. unfold wcol_new. wne. Qed.
#[export] Hint Resolve ne_wcol : ne.
Lemma ne_new_branch w n t it : ne (new_branch w n t it). Proof. unfold new_branch. wne. Qed.
#[export] Hint Resolve ne_new_branch : ne.
Lemma ne_build ops : forall w, ne (build w ops).
Proof. induction ops as [|o ops IH]; intros w; cbn [build]; [apply ne_ok|]. apply ne_rbind; [|intros; apply IH]. unfold build_step. wne. Qed.

(** ** Files open for writing *)
Definition for_writing (f : file) : Prop := exists log, f_io f = IOWrite log.
Definition fne {A} (m : FM A) : Prop := forall f, for_writing f -> for_writing (fst (m f)) /\ ne (snd (m f)).

Lemma fne_bind {A B} (m : FM A) (k : A -> FM B) : fne m -> (forall a, fne (k a)) -> fne (fbind m k).
Proof.
  intros H1 H2 f W. specialize (H1 f W). unfold fbind. destruct (m f) as [f1 [a| | | |]]; cbn [fst snd] in *; try (split; [tauto|discriminate]).
  - apply H2. tauto.
  - destruct H1 as [W1 E]. split; [exact W1|]. intros e' X. now apply (E e).
Qed.
Lemma fne_ret {A} (a : A) : fne (fret a). Proof. intros f W. split; [exact W|discriminate]. Qed.
Lemma fne_lift {A} (r : res A) : ne r -> fne (flift r). Proof. intros H f W. split; [exact W|exact H]. Qed.
Lemma fne_gets {A} (g : file -> A) : fne (fgets g). Proof. intros f W. split; [exact W|discriminate]. Qed.
Lemma fne_modify g : (forall f, f_io (g f) = f_io f) -> fne (fmodify g).
Proof. intros H f (l & E). split; [exists l; cbn; now rewrite H|discriminate]. Qed.
Lemma fne_fwrite p b : fne (fwrite p b).
Proof. intros f (l & E). unfold fwrite. rewrite E. split; [eexists; reflexivity|discriminate]. Qed.
Lemma fne_fwriter : fne fwriter.
Proof. intros f (l & E). unfold fwriter. rewrite E. split; [now exists l|discriminate]. Qed.
Lemma fne_fiter {A} (g : A -> FM unit) l : (forall a, fne (g a)) -> fne (fiter g l).
Proof. intros H. induction l; cbn [fiter]; [apply fne_ret|]. apply fne_bind; auto. Qed.
#[export] Hint Resolve fne_ret fne_gets fne_fwrite fne_fwriter : ne.
Ltac fne :=
  repeat match goal with
  | |- fne (fbind _ _) => apply fne_bind; [|intros]
  | |- fne (flift _) => apply fne_lift
  | |- fne (fmodify _) => apply fne_modify; intros; try reflexivity
  | |- fne (if ?b then _ else _) => destruct b
  | |- fne (match ?x with _ => _ end) => destruct x
  | |- fne (let _ := _ in _) => cbv zeta
  | |- fne (fiter _ _) => apply fne_fiter; intros
  | |- fne _ => solve [auto with ne]
  | |- ne _ => progress wne
  end.
Lemma fne_set_end p : fne (set_end p). Proof. unfold set_end. fne. Qed.
#[export] Hint Resolve fne_set_end : ne.
Lemma fne_key_from kl n t c cy b : fne (key_from kl n t c cy b). Proof. unfold key_from. fne. Qed.
#[export] Hint Resolve fne_key_from : ne.
Lemma fne_key_buf n t c cy b : fne (key_from_buffer n t c cy b). Proof. unfold key_from_buffer. fne. Qed.
Lemma fne_key_obj n t c m : wne m -> fne (key_from_object n t c m). Proof. intros H. unfold key_from_object. fne. Qed.
Lemma fne_key_write k : fne (key_write k). Proof. unfold key_write. fne. Qed.
Lemma fne_add_sinfo s : fne (add_sinfo s). Proof. unfold add_sinfo. fne. destruct (existsb _ _); reflexivity. Qed.
#[export] Hint Resolve fne_key_buf fne_key_obj fne_key_write fne_add_sinfo : ne.
Lemma fne_basket_write b : fne (basket_write b). Proof. unfold basket_write. fne. apply ne_run. wne. Qed.
#[export] Hint Resolve fne_basket_write : ne.
Lemma fne_flush c : fne (flush c). Proof. unfold flush. fne. Qed.
Lemma fne_create tn c : fne (create_new_basket tn c). Proof. unfold create_new_basket. fne. Qed.
#[export] Hint Resolve fne_flush fne_create : ne.
Lemma fne_entry tn c wb v : fne (write_entry tn c wb v). Proof. unfold write_entry. fne. Qed.
#[export] Hint Resolve fne_entry : ne.
Lemma fne_wcol tn c : fne (wcol_write tn c). Proof. unfold wcol_write. fne. Qed.
#[export] Hint Resolve fne_wcol : ne.
Lemma fne_row tn n cols : forall tot, fne (write_row tn n cols tot).
Proof. induction cols as [|[c d] cols IH]; intros tot; cbn [write_row]; fne. Qed.
#[export] Hint Resolve fne_row : ne.
Lemma fne_rows fuel tn n : forall t cols ev, fne (write_rows fuel tn n t cols ev).
Proof. induction fuel as [|k IH]; intros t cols ev; cbn [write_rows]; fne. Qed.
Lemma fne_flush_all cols : fne (flush_all cols).
Proof. induction cols; cbn [flush_all]; fne. Qed.
