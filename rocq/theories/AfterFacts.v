(** Writing to a file after it has been closed: what was there stays. *)
From Verif Require Import Base RBuf WBuf Values Key Obj RObj TreeObj File FileMono FileLay FileOps FileClose FileOpen FileFinal Column ColRead ColOps ColBack TreeOps
  TreeWrite TreeSession StreamerDb Spec SpecTree SpecDamage SessFacts FileFacts DamageFacts PartFacts CrashFacts DamageFile.

(** [m], started when the file ends at [e] or later, writes nowhere before [e] and gives
    something with [Q]. *)
Definition keeps {A} (e : Z) (m : FM A) (Q : A -> Prop) : Prop := forall f l f' r, 0 <= e -> f_io f = IOWrite l -> e <= fh_end (f_hdr f) -> m f = (f', r) ->
  exists l', f_io f' = IOWrite (l ++ l') /\ Forall (fun w => e <= fst w) l' /\ (forall a, r = Ok a -> e <= fh_end (f_hdr f') /\ Q a).

Lemma keeps_bind {A B} e (m : FM A) (k : A -> FM B) P Q : keeps e m P -> (forall a, P a -> keeps e (k a) Q) -> keeps e (fbind m k) Q.
Proof.
  intros H1 H2 f l f' r E0 IO E R. unfold fbind in R. destruct (m f) as [f1 r1] eqn:M1. destruct (H1 f l f1 r1 E0 IO E M1) as (l1 & I1 & F1 & E1).
  destruct r1 as [a|x| | |]; [|injection R as <- <-; exists l1; repeat split; auto; discriminate..].
  destruct (E1 a eq_refl) as (E2 & PA). destruct (H2 a PA f1 (l ++ l1) f' r E0 I1 E2 R) as (l2 & I2 & F2 & E3). exists (l1 ++ l2). rewrite app_assoc.
  split; [exact I2|]. split; [apply Forall_app; auto|exact E3].
Qed.
Lemma keeps_pure {A} e (m : FM A) (Q : A -> Prop) : (forall f, f_io (fst (m f)) = f_io f /\ fh_end (f_hdr (fst (m f))) = fh_end (f_hdr f) /\ forall a, snd (m f) = Ok a -> Q a) -> keeps e m Q.
Proof.
  intros H f l f' r _ IO E R. specialize (H f). rewrite R in H. cbn [fst snd] in H. destruct H as (H1 & H2 & H3). exists []. rewrite app_nil_r, H1. split; [exact IO|]. split; [constructor|].
  intros a EA. split; [lia|now apply H3].
Qed.
Lemma keeps_ret {A} e (a : A) (Q : A -> Prop) : Q a -> keeps e (fret a) Q.
Proof. intros H. apply keeps_pure. intros f. split; [reflexivity|]. split; [reflexivity|]. intros b E. now injection E as <-. Qed.
Lemma keeps_lift {A} e (r : res A) (Q : A -> Prop) : (forall a, r = Ok a -> Q a) -> keeps e (flift r) Q.
Proof. intros H. apply keeps_pure. intros f. split; [reflexivity|]. split; [reflexivity|]. exact H. Qed.
Lemma keeps_gets {A} e (g : file -> A) (Q : A -> Prop) : (forall f, Q (g f)) -> keeps e (fgets g) Q.
Proof. intros H. apply keeps_pure. intros f. split; [reflexivity|]. split; [reflexivity|]. intros b E. now injection E as <-. Qed.
Lemma keeps_modify e g : (forall f, f_io (g f) = f_io f /\ fh_end (f_hdr (g f)) = fh_end (f_hdr f)) -> keeps e (fmodify g) (fun _ => True).
Proof. intros H. apply keeps_pure. intros f. destruct (H f). auto. Qed.
Lemma keeps_panic {A} e (Q : A -> Prop) : keeps e (flift Panic) Q. Proof. apply keeps_lift. discriminate. Qed.
Lemma keeps_weaken {A} e (m : FM A) (P Q : A -> Prop) : keeps e m P -> (forall a, P a -> Q a) -> keeps e m Q.
Proof.
  intros H W f l f' r E0 IO E R. destruct (H f l f' r E0 IO E R) as (l1 & I1 & F1 & E1). exists l1. split; [exact I1|]. split; [exact F1|]. intros a EA. destruct (E1 a EA). auto.
Qed.
Lemma keeps_fiter {A} e (g : A -> FM unit) l : (forall a, keeps e (g a) (fun _ => True)) -> keeps e (fiter g l) (fun _ => True).
Proof. intros H. induction l; cbn [fiter]; [now apply keeps_ret|]. eapply keeps_bind; [apply H|]. auto. Qed.
Ltac any := first [apply keeps_gets; intros; exact I | apply keeps_lift; intros; exact I].
Ltac skip := apply (keeps_bind _ _ _ (fun _ => True)); [any|intros ? _].

(** ** Records *)
Lemma set_end_inv p f f' r : set_end p f = (f', r) -> f_io f' = f_io f /\ fh_end (f_hdr f') = p.
Proof.
  unfold set_end, fmodify, fgets, fbind. cbn [f_set_hdr f_spans]. destruct (rev (f_spans f)) as [|s t]; [intros H; injection H as <- _; split; reflexivity|].
  destruct (s_last s =? kStartBigFile); intros H; injection H as <- _; split; reflexivity.
Qed.

Lemma key_from_inv kl n t c cy b f f' r : key_from kl n t c cy b f = (f', r) ->
  f_io f' = f_io f /\ forall k, r = Ok k ->
    k_seek k = fh_end (f_hdr f) /\ k_keylen k = kl /\ fh_end (f_hdr f') = fh_end (f_hdr f) + k_nbytes k.
Proof.
  intros H. unfold key_from in H. cbv zeta in H. set (z := to_i32 (zlen b)) in *.
  unfold fbind at 1, flift in H. destruct (add_i32 kl z); [|injection H as <- <-; split; [reflexivity|discriminate]..].
  unfold fgets in H. unfold fbind at 1 2 3 4 in H. unfold fbind at 1 in H. unfold flift in H.
  destruct (compress b (fh_comp (f_hdr f))) as [out|x| | |]; [|injection H as <- <-; split; [reflexivity|discriminate]..].
  unfold fbind at 1 in H. destruct (add_i32 kl (to_i32 (zlen out))) as [nb|x| | |] eqn:NB; [|injection H as <- <-; split; [reflexivity|discriminate]..].
  unfold fbind in H. destruct (set_end (fh_end (f_hdr f) + nb) f) as [f1 r1] eqn:SE. apply set_end_inv in SE as (S1 & S2).
  destruct r1; injection H as <- <-; (split; [exact S1|]); try discriminate. intros k Q. injection Q as <-. cbn [k_seek k_keylen k_nbytes]. auto.
Qed.
Definition short (s : bytes) : Prop := zlen s < 2 ^ 31.
Lemma fkl_pos n t c f : short n -> short t -> short c -> 0 <= f_keylen n t c f.
Proof.
  unfold f_keylen, key_len_for. assert (T : forall s, short s -> 0 <= tstring_sizeof s).
  { intros s S. unfold tstring_sizeof, short in *. pose proof (zlen_nonneg s). rewrite to_i32_id by (unfold is_i32; lia). destruct (_ <? _); lia. }
  intros N1 N2 N3. pose proof (T n N1). pose proof (T t N2). pose proof (T c N3). destruct (_ || _), (beqb _ _); lia.
Qed.

(** A record whose place was just allotted. *)
Definition allots (mk : FM key) : Prop := forall f f' r, mk f = (f', r) -> f_io f' = f_io f /\ forall k, r = Ok k ->
  k_seek k = fh_end (f_hdr f) /\ 0 <= k_keylen k /\ fh_end (f_hdr f') = fh_end (f_hdr f) + k_nbytes k.
Lemma allots_buffer n t c cy b : short n -> short t -> short c -> allots (key_from_buffer n t c cy b).
Proof.
  intros S1 S2 S3 f f' r. unfold key_from_buffer, fbind, fgets. intros H. apply key_from_inv in H as (I & H). split; [exact I|]. intros k E. destruct (H k E) as (A & B & C).
  split; [exact A|]. split; [rewrite B; now apply fkl_pos|exact C].
Qed.
Lemma allots_object n t c m : short n -> short t -> short c -> allots (key_from_object n t c m).
Proof.
  intros S1 S2 S3 f f' r. unfold key_from_object, fbind, fgets, flift. intros H. destruct (wrun _ m) as [b|x| | |]; [|injection H as <- <-; split; [reflexivity|discriminate]..].
  apply key_from_inv in H as (I & H). split; [exact I|]. intros k E. destruct (H k E) as (A & B & C).
  split; [exact A|]. split; [rewrite B; now apply fkl_pos|exact C].
Qed.

(** Marshalling a key checks that its length is not negative. *)
Lemma key_marshal_pos k s x s' : key_marshal k s = Ok (x, s') -> 0 <= k_nbytes k.
Proof.
  unfold key_marshal. unfold bind at 1. destruct (write_i32 (k_nbytes k) s) as [[u s1]|e| | |]; try discriminate.
  destruct (Z.ltb_spec (k_nbytes k) 0); [discriminate|auto].
Qed.
Lemma wrun_key_pos k h : wrun 0 (key_marshal k) = Ok h -> 0 <= k_nbytes k.
Proof. unfold wrun. destruct (key_marshal k (w_new 0)) as [[u s1]|e| | |] eqn:E; try discriminate. intros _. exact (key_marshal_pos _ _ _ _ E). Qed.
Lemma wrun_basket_pos off b h : wrun off (basket_marshal b) = Ok h -> 0 <= k_nbytes (bk_key b).
Proof.
  unfold wrun, basket_marshal. unfold bind at 1. destruct (key_marshal (bk_key b) (w_new off)) as [[u s1]|e| | |] eqn:E; try discriminate. intros _. exact (key_marshal_pos _ _ _ _ E).
Qed.

Lemma keeps_record {A} e (mk : FM key) (hd : key -> res bytes) (rest : key -> FM A) Q : allots mk -> (forall k h, hd k = Ok h -> 0 <= k_nbytes k) ->
  (forall k, keeps e (rest k) Q) ->
  keeps e (k <-! mk ;; h <-! flift (hd k) ;; fwrite (k_seek k) h ;;! fwrite (k_seek k + k_keylen k) (k_buffer k) ;;! rest k) Q.
Proof.
  intros MK HP KR f l f' r E0 IO E R. unfold fbind at 1 in R. destruct (mk f) as [f1 rk] eqn:M. destruct (MK f f1 rk M) as (I1 & K1).
  assert (BAD : forall x : res A, f' = f1 -> (forall a, x <> Ok a) -> r = x -> exists l', f_io f' = IOWrite (l ++ l') /\ Forall (fun w => e <= fst w) l' /\ (forall a, r = Ok a -> e <= fh_end (f_hdr f') /\ Q a)).
  { intros x -> NX ->. exists []. rewrite app_nil_r, I1. split; [exact IO|]. split; [constructor|]. intros a EQ. destruct (NX a EQ). }
  destruct rk as [k|x| | |]; [|injection R as <- <-; eapply BAD; [reflexivity| |reflexivity]; discriminate..].
  destruct (K1 k eq_refl) as (A1 & A2 & A3). clear K1 M.
  unfold fbind at 1, flift in R. destruct (hd k) as [h|x| | |] eqn:HK; [|injection R as <- <-; eapply BAD; [reflexivity| |reflexivity]; discriminate..].
  pose proof (HP k h HK) as NP.
  unfold fbind at 1, fwrite at 1 in R. rewrite I1, IO in R. unfold fbind at 1, fwrite at 1 in R. cbn [f_set_io f_io] in R.
  match type of R with rest k ?x = _ => set (f2 := x) in R end.
  destruct (KR k f2 ((l ++ [(k_seek k, h)]) ++ [(k_seek k + k_keylen k, k_buffer k)]) f' r E0) as (l2 & I2 & F2 & E2); [reflexivity| |exact R|].
  { unfold f2. cbn [f_set_io f_hdr]. rewrite A3. lia. }
  exists ([(k_seek k, h)] ++ [(k_seek k + k_keylen k, k_buffer k)] ++ l2). split; [rewrite I2, <- !app_assoc; reflexivity|]. split; [|exact E2].
  constructor; [cbn [fst]; lia|]. constructor; [cbn [fst]; lia|]. exact F2.
Qed.

Lemma keeps_key_write {A} e (mk : FM key) c (rest : key -> FM A) Q : allots mk -> (forall k, keeps e (rest k) Q) ->
  keeps e (k <-! mk ;; key_write (k_set_cycle k c) ;;! rest k) Q.
Proof.
  intros MK KR f l f' r E0 IO E R.
  apply (keeps_record e mk (fun k => wrun 0 (key_marshal (k_set_cycle k c))) rest Q MK) with (f := f); auto.
  { intros k h H. apply wrun_key_pos in H. exact H. }
  rewrite <- R. unfold fbind at 1 5. destruct (mk f) as [f1 rk] eqn:M. destruct (MK f f1 rk M) as (I1 & _). destruct rk as [k|x| | |]; try reflexivity.
  unfold key_write, fwriter. unfold fbind, flift, fwrite, f_set_io. cbn [k_seek k_keylen k_buffer k_set_cycle]. rewrite I1, IO.
  destruct (wrun 0 _); try reflexivity. cbn [f_io]. rewrite I1, IO. cbn [f_io]. reflexivity.
Qed.

(** ** Baskets and columns *)
Definition short_wb (wb : wbasket) : Prop := short (k_name (bk_key (wb_basket wb))) /\ short (k_title (bk_key (wb_basket wb))).
Definition short_col (c : wcol) : Prop := short (wc_name c) /\ forall wb, wc_basket c = Some wb -> short_wb wb.

Lemma keeps_basket_write e wb : short_wb wb -> keeps e (basket_write wb) (fun _ => True).
Proof.
  intros (S1 & S2). unfold basket_write. cbv zeta. skip. skip. skip.
  match goal with |- keeps _ (fbind (key_from_buffer ?n ?t ?c ?cy ?b) _) _ => set (mk := key_from_buffer n t c cy b) end.
  match goal with |- keeps _ (fbind mk (fun k => fbind (flift (@?hd k)) _)) ?Q =>
    apply (keeps_record e mk hd (fun k => _) Q) end.
  - apply allots_buffer; auto. reflexivity.
  - cbv beta. intros k h H. apply wrun_basket_pos in H. exact H.
  - intros k. now apply keeps_ret.
Qed.

Lemma keeps_create e tn c : short tn -> short (wc_name c) -> keeps e (create_new_basket tn c) short_col.
Proof.
  intros S1 S2. unfold create_new_basket. cbv zeta. destruct (negb _); [apply keeps_panic|].
  apply (keeps_bind _ _ _ short_wb); [apply keeps_gets; intros f; now split|]. intros wb H. apply keeps_ret. split; [exact S2|]. cbn [wc_basket]. intros ? E. now injection E as <-.
Qed.
Lemma keeps_flush e c : short_col c -> keeps e (flush c) (fun c' => short (wc_name c')).
Proof.
  intros (S1 & S2). unfold flush. destruct (wc_basket c) as [wb|]; [|apply keeps_panic]. eapply keeps_bind; [apply keeps_basket_write, S2; reflexivity|]. intros kw _. cbv zeta. skip. apply keeps_ret. exact S1.
Qed.
Lemma basket_update_key b sz b' : basket_update b sz = Ok b' -> bk_key b' = bk_key b.
Proof.
  unfold basket_update. destruct (bk_offsets b) as [|o os]; cbn [rbind]; [intros [= <-]; reflexivity|]. destruct (_ <=? _); cbn [rbind];
    destruct (list_set _ _ _); cbn [rbind]; try discriminate; intros [= <-]; reflexivity.
Qed.
Lemma keeps_write_entry e tn c wb v : short tn -> short_col c -> short_wb wb -> keeps e (write_entry tn c wb v) (fun cn => short_col (fst cn)).
Proof.
  intros T (S1 & S2) (W1 & W2). unfold write_entry. cbv zeta. apply (keeps_bind _ _ _ (fun b => bk_key b = bk_key (wb_basket wb))).
  { apply keeps_lift. apply basket_update_key. }
  intros b KB. skip.
  match goal with |- context[flush ?x] => assert (SC : short_col x) end.
  { split; [exact S1|]. cbn [wc_basket]. intros wb' [= <-]. split; cbn [wb_basket]; destruct (_ <? _); cbn [bk_key bk_set_size]; rewrite KB; auto. }
  destruct (_ <=? _); [apply keeps_panic|]. destruct (_ <=? _).
  - eapply keeps_bind; [apply keeps_flush, SC|]. intros c1 H1. eapply keeps_bind; [apply keeps_create; auto|]. intros c2 H2. now apply keeps_ret.
  - now apply keeps_ret.
Qed.
Lemma keeps_wcol_write e tn c : short tn -> short_col c -> keeps e (wcol_write tn c) (fun cn => short_col (fst cn)).
Proof.
  intros T S. unfold wcol_write. apply (keeps_bind _ _ _ short_col).
  { destruct (wc_basket c); [now apply keeps_ret|]. apply keeps_create; [exact T|apply S]. }
  intros c1 (S1 & S2). destruct (wc_basket c1) as [wb|] eqn:WB; [|apply keeps_panic]. cbv zeta. destruct (hd None _) as [v|].
  - eapply keeps_bind; [apply keeps_write_entry; [exact T| |now apply S2]|].
    { split; [exact S1|]. cbn [wc_basket]. intros ? [= <-]. now apply S2. }
    intros cn H. now apply keeps_ret.
  - apply keeps_ret. split; [exact S1|]. cbn [wc_basket]. intros ? [= <-]. now apply S2.
Qed.
Lemma keeps_write_row e tn ncb cols : short tn -> forall tot, Forall (fun cd => short_col (fst cd)) cols ->
  keeps e (write_row tn ncb cols tot) (fun r => Forall (fun cd => short_col (fst cd)) (fst (fst r))).
Proof.
  intros T. induction cols as [|[c d] r IH]; intros tot F; cbn [write_row].
  - apply keeps_ret. constructor.
  - inversion F as [|? ? F1 F2]; subst. cbv zeta. eapply keeps_bind; [apply keeps_wcol_write; [exact T|exact F1]|]. intros cn HC.
    apply (keeps_bind _ _ _ (fun _ => True)); [destruct (snd cn); [any|now apply keeps_ret]|]. intros tot' _.
    eapply keeps_bind; [now apply IH|]. intros [[r' t] ev'] H. apply keeps_ret. cbn [fst]. constructor; auto.
Qed.
Lemma keeps_write_rows e fuel tn ncb : short tn -> forall t cols ev, Forall (fun cd => short_col (fst cd)) cols ->
  keeps e (write_rows fuel tn ncb t cols ev) (fun r => t_named (fst (fst r)) = t_named t /\ Forall (fun cd => short_col (fst cd)) (snd (fst r))).
Proof.
  intros T. induction fuel as [|n IH]; intros t cols ev F; cbn [write_rows]; [apply keeps_lift; discriminate|].
  eapply keeps_bind; [now apply keeps_write_row|]. intros [[cols' tot] ev'] H. cbv zeta. cbn [fst] in H. destruct (forallb snd cols').
  - apply keeps_ret. cbn [fst snd t_add t_named]. auto.
  - eapply keeps_weaken; [now apply IH|]. cbn [t_add t_named]. auto.
Qed.
Lemma keeps_flush_all e cols : Forall short_col cols -> keeps e (flush_all cols) (fun _ => True).
Proof.
  induction cols as [|c r IH]; intros F; cbn [flush_all]; [now apply keeps_ret|]. inversion F; subst.
  eapply keeps_bind; [now apply keeps_flush|]. intros c' _. eapply keeps_bind; [now apply IH|]. intros. now apply keeps_ret.
Qed.
Lemma keeps_add_sinfo e si : keeps e (add_sinfo si) (fun _ => True).
Proof. apply keeps_modify. intros f. destruct (existsb _ _); split; reflexivity. Qed.
Lemma keeps_put_tree e db n o : short n -> short (o_name o) -> short (o_title o) -> short (o_cls o) -> keeps e (put_obj db n o) (fun _ => True).
Proof.
  intros S1 S2 S3 S4. unfold put_obj. destruct (existsb _ n); [apply keeps_lift; discriminate|]. cbv zeta. skip. skip. skip.
  apply (keeps_bind _ _ _ (fun _ => True)).
  { destruct (is_core_type _); [now apply keeps_ret|]. destruct (db _ _); [apply keeps_add_sinfo|apply keeps_panic]. }
  intros _ _. apply keeps_key_write; [apply allots_object; auto; destruct n; auto|]. intros k. apply keeps_modify. intros f. split; reflexivity.
Qed.
Lemma keeps_tree_write e db w : short (n_name (t_named (wt_tree w))) -> short (n_title (t_named (wt_tree w))) -> Forall short_col (wt_cols w) -> keeps e (tree_write db w) (fun _ => True).
Proof.
  intros S1 S2 F. unfold tree_write. cbv zeta. eapply keeps_bind; [apply keeps_write_rows; [exact S1|]|].
  { induction F; cbn [map]; constructor; auto. }
  intros [[t' cols] ev] (EN & F'). cbn [fst snd] in EN, F'. apply (keeps_bind _ _ _ (fun _ => True)); [|intros; now apply keeps_ret].
  unfold tree_close. eapply keeps_bind; [apply keeps_flush_all|].
  { clear - F'. induction F'; cbn [map]; constructor; auto. }
  intros cols' _. eapply keeps_bind; [apply keeps_put_tree; cbn [tree_obj o_name o_title o_cls]; rewrite ?EN; auto; reflexivity|]. intros _ _.
  destruct (wt_sinfos w); [|apply keeps_panic]. eapply keeps_bind; [apply keeps_fiter; intros; apply keeps_add_sinfo|]. intros. now apply keeps_ret.
Qed.

(** ** Programs *)
Definition short_prog (p : tprog) : Prop := short (tp_name p) /\ Forall (fun s => short (cs_name s)) (cols_of (tp_ops p)).
Lemma wcol_new_short n t it c sis : wcol_new n t it = Ok (c, sis) -> short n -> short_col c.
Proof.
  unfold wcol_new. destruct (leaf_new n t); cbn [rbind]; try discriminate. intros H S.
  destruct t; try (match type of H with rbind ?m _ = _ => destruct m; cbn [rbind] in H; try discriminate end);
    injection H as <- _; split; cbn; auto; discriminate.
Qed.
Lemma build_short ops : forall w w', build w ops = Ok w' -> Forall (fun s => short (cs_name s)) (cols_of ops) -> Forall short_col (wt_cols w) ->
  t_named (wt_tree w') = t_named (wt_tree w) /\ Forall short_col (wt_cols w').
Proof.
  induction ops as [|o r IH]; intros w w' B F C; cbn [build] in B; [injection B as <-; auto|].
  destruct (build_step w o) as [w1|x| | |] eqn:B1; cbn [rbind] in B; try discriminate. destruct o as [n t it|].
  - cbn [cols_of] in F. inversion F as [|? ? F1 F2]; subst. cbn [cs_name] in F1. cbn [build_step] in B1. unfold new_branch in B1.
    destruct (wcol_new n t it) as [[c sis]|x| | |] eqn:WC; cbn [rbind] in B1; try discriminate.
    match type of B1 with rbind ?m _ = _ => destruct m as [si|x| | |]; cbn [rbind] in B1; try discriminate end. injection B1 as <-.
    apply IH in B as (A1 & A2); auto. cbn [wt_cols]. apply Forall_app. split; [exact C|]. constructor; [|constructor]. exact (wcol_new_short _ _ _ _ _ WC F1).
  - cbn [cols_of] in F. cbn [build_step] in B1. injection B1 as <-. apply IH in B as (A1 & A2); auto.
Qed.
Lemma keeps_write_one e db p : short_prog p -> keeps e (write_one db p) (fun _ => True).
Proof.
  intros (S1 & S2). unfold write_one. apply (keeps_bind _ _ _ (fun w => n_name (t_named (wt_tree w)) = tp_name p /\ n_title (t_named (wt_tree w)) = [] /\ Forall short_col (wt_cols w))).
  { apply keeps_lift. intros w B. destruct (build_short _ _ _ B S2) as (A1 & A2); [constructor|]. rewrite A1. auto. }
  intros w (A1 & A2 & A3). eapply keeps_bind; [apply keeps_tree_write; rewrite ?A1, ?A2; auto; reflexivity|]. intros. now apply keeps_ret.
Qed.
Lemma keeps_write_trees e db ps : Forall short_prog ps -> keeps e (write_trees db ps) (fun _ => True).
Proof.
  induction ps; intros F; cbn [write_trees]; [now apply keeps_ret|]. inversion F; subst. eapply keeps_bind; [now apply keeps_write_one|]. intros ev _.
  eapply keeps_bind; [now apply IHps|]. intros. now apply keeps_ret.
Qed.

(** ** Nothing but closing records the place of the class descriptions *)
Definition info {A} (m : FM A) : Prop := forall f, fh_seekinfo (f_hdr (fst (m f))) = fh_seekinfo (f_hdr f).
Lemma info_bind {A B} (m : FM A) (k : A -> FM B) : info m -> (forall a, info (k a)) -> info (fbind m k).
Proof. intros H1 H2 f. specialize (H1 f). unfold fbind. destruct (m f) as [f1 [a| | | |]]; cbn [fst] in *; auto. rewrite <- H1. apply H2. Qed.
Lemma info_ret {A} (a : A) : info (fret a). Proof. intros f. reflexivity. Qed.
Lemma info_lift {A} (r : res A) : info (flift r). Proof. intros f. reflexivity. Qed.
Lemma info_gets {A} (g : file -> A) : info (fgets g). Proof. intros f. reflexivity. Qed.
Lemma info_modify g : (forall f, fh_seekinfo (f_hdr (g f)) = fh_seekinfo (f_hdr f)) -> info (fmodify g). Proof. intros H f. apply H. Qed.
Lemma info_if {A} (b : bool) (m n : FM A) : info m -> info n -> info (if b then m else n). Proof. destruct b; auto. Qed.
Lemma info_fwrite p b : info (fwrite p b). Proof. intros f. unfold fwrite. destruct (f_io f); reflexivity. Qed.
Lemma info_fwriter : info fwriter. Proof. intros f. unfold fwriter. destruct (f_io f); reflexivity. Qed.
Lemma info_fiter {A} (g : A -> FM unit) l : (forall a, info (g a)) -> info (fiter g l).
Proof. intros H. induction l; cbn [fiter]; [apply info_ret|]. apply info_bind; auto. Qed.
Create HintDb info.
#[local] Hint Resolve info_ret info_lift info_gets info_fwrite info_fwriter : info.
Ltac info :=
  repeat match goal with
  | |- info (fbind _ _) => apply info_bind; [|intros]
  | |- info (if _ then _ else _) => apply info_if
  | |- info (fmodify _) => apply info_modify; intros; try reflexivity
  | |- info (match ?x with _ => _ end) => destruct x
  | |- info (let _ := _ in _) => cbv zeta
  | |- info (fiter _ _) => apply info_fiter; intros
  | |- info _ => solve [auto with info]
  end.
Lemma info_set_end p : info (set_end p). Proof. unfold set_end. info. Qed.
#[local] Hint Resolve info_set_end : info.
Lemma info_key_new n t c o : info (key_new n t c o). Proof. unfold key_new. info. Qed.
Lemma info_key_from kl n t c cy b : info (key_from kl n t c cy b). Proof. unfold key_from. info. Qed.
Lemma info_key_write k : info (key_write k). Proof. unfold key_write. info. Qed.
#[local] Hint Resolve info_key_new info_key_from info_key_write : info.
Lemma info_key_from_buffer n t c cy b : info (key_from_buffer n t c cy b). Proof. unfold key_from_buffer. info. Qed.
Lemma info_key_from_object n t c m : info (key_from_object n t c m). Proof. unfold key_from_object. info. Qed.
#[local] Hint Resolve info_key_from_buffer info_key_from_object : info.
Lemma info_add_sinfo si : info (add_sinfo si). Proof. unfold add_sinfo. info. destruct (existsb _ _); reflexivity. Qed.
#[local] Hint Resolve info_add_sinfo : info.
Lemma info_put db n o : info (put_obj db n o). Proof. unfold put_obj. info. Qed.
Lemma info_save_keys d : info (save_keys d). Proof. unfold save_keys. info. Qed.
Lemma info_write_dir d : info (write_dir d). Proof. unfold write_dir. info. Qed.
Lemma info_find_deep db : info (find_deep db). Proof. unfold find_deep, add_dep. info. Qed.
#[local] Hint Resolve info_put info_save_keys info_write_dir info_find_deep : info.
Lemma info_basket_write wb : info (basket_write wb). Proof. unfold basket_write. info. Qed.
#[local] Hint Resolve info_basket_write : info.
Lemma info_create_new tn c : info (create_new_basket tn c). Proof. unfold create_new_basket. info. Qed.
Lemma info_flush c : info (flush c). Proof. unfold flush. info. Qed.
#[local] Hint Resolve info_create_new info_flush : info.
Lemma info_write_entry tn c wb v : info (write_entry tn c wb v). Proof. unfold write_entry. info. Qed.
#[local] Hint Resolve info_write_entry : info.
Lemma info_wcol_write tn c : info (wcol_write tn c). Proof. unfold wcol_write. info. Qed.
#[local] Hint Resolve info_wcol_write : info.
Lemma info_write_row tn n cols : forall tot, info (write_row tn n cols tot).
Proof. induction cols as [|[c d] r IH]; intros tot; cbn [write_row]; info; apply IH. Qed.
#[local] Hint Resolve info_write_row : info.
Lemma info_write_rows fuel tn n : forall t cols ev, info (write_rows fuel tn n t cols ev).
Proof. induction fuel; intros; cbn [write_rows]; info; apply IHfuel. Qed.
#[local] Hint Resolve info_write_rows : info.
Lemma info_flush_all cols : info (flush_all cols). Proof. induction cols; cbn [flush_all]; info. Qed.
#[local] Hint Resolve info_flush_all : info.
Lemma info_write_one db p : info (write_one db p). Proof. unfold write_one, tree_write, tree_close. info. Qed.
#[local] Hint Resolve info_write_one : info.
Lemma info_write_trees db ps : info (write_trees db ps). Proof. induction ps; cbn [write_trees]; info. Qed.

Lemma close_info db f f' r : fh_seekinfo (f_hdr f) <> 0 -> close db f = (f', r) -> r <> Ok tt.
Proof.
  intros NZ H ->. unfold close in H. apply fbind_inv in H as (f1 & d & H1 & H). injection H1 as <- <-.
  apply fbind_inv in H as (f1 & d1 & H1 & H). pose proof (info_save_keys (f_dir f) f) as I1. rewrite H1 in I1. cbn [fst] in I1.
  apply fbind_inv in H as (f2 & d2 & H2 & H). pose proof (info_write_dir d1 f1) as I2. rewrite H2 in I2. cbn [fst] in I2.
  apply fbind_inv in H as (f3 & [] & H3 & H). injection H3 as <-.
  apply fbind_inv in H as (f4 & [] & H4 & H). unfold write_sinfos in H4.
  apply fbind_inv in H4 as (f5 & [] & H5 & H4). match type of H5 with find_deep _ ?x = _ => pose proof (info_find_deep db x) as I3; rewrite H5 in I3; cbn [fst f_hdr f_set_dir] in I3 end.
  apply fbind_inv in H4 as (f6 & s & H6 & H4). injection H6 as <- <-. apply fbind_inv in H4 as (f6 & h & H6 & H4). injection H6 as <- <-.
  destruct (Z.eqb_spec (fh_seekinfo (f_hdr f5)) 0) as [E|E]; [congruence|discriminate H4].
Qed.

(** ** What is on the disk afterwards *)
Lemma fold_grow l : forall d, Forall (fun w => zlen d <= fst w) l -> exists y, fold_left (fun d w => dwrite d (fst w) (snd w)) l d = d ++ y.
Proof. intros d F. destruct (fold_keeps l d [] F) as (y & E). rewrite app_nil_r in E. eauto. Qed.

Lemma crash_ge e all done : Forall (fun w : Z * bytes => e <= fst w) all -> crash all done -> Forall (fun w => e <= fst w) done.
Proof.
  intros F C. inversion C; subst; apply Forall_app in F as (F1 & F2); [exact F1|]. apply Forall_app. split; [exact F1|]. inversion F2; subst. constructor; auto.
Qed.

Lemma fiter_io {A} (g : A -> FM unit) l : (forall a f, f_io (fst (g a f)) = f_io f) -> forall f, f_io (fst (fiter g l f)) = f_io f.
Proof.
  intros H. induction l as [|a l IH]; intros f; cbn [fiter]; [reflexivity|]. unfold fbind. pose proof (H a f) as HA. destruct (g a f) as [f1 [[]|x| | |]]; cbn [fst] in *; auto.
  rewrite IH. exact HA.
Qed.
Lemma find_deep_io db f : f_io (fst (find_deep db f)) = f_io f.
Proof.
  unfold find_deep. unfold fbind at 1, fgets. unfold fbind, flift.
  match goal with |- context[match ?r with Ok _ => _ | _ => _ end] => destruct r; try reflexivity end.
  apply fiter_io. intros x g. unfold add_dep. destruct (_ || _); [reflexivity|]. destruct (db _ _); [|reflexivity].
  unfold add_sinfo, fmodify. cbn [fst]. destruct (existsb _ _); reflexivity.
Qed.

Section After.
Variables (path : bytes) (ts : list table) (es : list (list (nat * event))) (keys : list key) (sis : list sinfo) (recs : list bytes)
  (log : list (Z * bytes)) (sis' : list sinfo) (sbuf : bytes) (f : file).
Hypothesis (P : path_ok path) (NB : nbname path <= 1000) (T : Forall table_ok ts)
  (CS : closed_session real_db path (map calls ts) es keys sis recs log sis' sbuf f).
Notation e := (E0 path + rsize recs).
Notation kk := (kkey path keys e).
Notation e1 := (e + k_nbytes kk).
Notation ks := (skey sbuf e1).
Notation e2 := (e1 + k_nbytes ks).
Notation kf := (fkey path e2).
Notation e3 := (e2 + k_nbytes kf).
Notation h1 := (hdr1 path keys sbuf e).
Notation d1 := (dir1 path keys e).

Lemma af_disk : f_disk f = disk_of (log ++ close_log path keys sbuf e).
Proof. destruct CS as [_ LL G NK HE SO SC SR SB S4 ->]. reflexivity. Qed.
Lemma af_len : zlen (f_disk f) = e3 /\ fh_end (f_hdr f) = e3 /\ fh_seekinfo (f_hdr f) = e1 /\ writes_of f = log ++ close_log path keys sbuf e.
Proof.
  pose proof af_disk as AD. destruct CS as [_ LL G NK HE SO SC SR SB S4 CF]. destruct (disk_closed path keys recs log sbuf P LL HE) as (_ & LD). rewrite AD.
  split; [exact LD|]. rewrite CF. split; [reflexivity|]. split; reflexivity.
Qed.
Lemma af_segs : seg (f_disk f) 0 (hdrb h1) /\ seg (f_disk f) 100 (name_rec path ++ dirb d1 ++ repeat 0 12) /\
  seg (f_disk f) (E0 path) (concat recs) /\ seg (f_disk f) e (rec kk) /\ seg (f_disk f) e1 (rec ks) /\ seg (f_disk f) e2 (rec kf).
Proof. rewrite af_disk. destruct CS as [_ LL G NK HE SO SC SR SB S4 CF]. exact (closed_segs path keys recs log sbuf P LL HE). Qed.

Lemma af_read D fo : zlen D < 2 ^ 63 -> seg D (E0 path) (concat recs) -> f_io fo = IORead D -> d_keys (f_dir fo) = map key_listed keys ->
  f_sinfos fo = map sinfo_seen (rev sis') -> shows_tables fo ts.
Proof.
  intros HD SG IO DK SI. destruct CS as [S LL G NK HE SO SC SR SB S4 CF FW]. destruct S as [L ST CY IN UN _ EV SL].
  apply (records_read path ts keys recs fo D P T HD SG ST (IN FW) IO DK). intros s C. rewrite SI. apply (src_sis_for real_db); [exact real_db_ok|exact SR|exact C].
Qed.

Lemma af_grown x : zlen (f_disk f ++ x) < 2 ^ 63 -> exists fo, open_file (f_disk f ++ x) = Ok fo /\ shows_tables fo ts.
Proof.
  intros LD. destruct af_segs as (S0 & S1 & S2 & S3 & S5 & S6).
  pose proof CS as [_ LL G NK HE SO SC SR SB S4 CF].
  eexists. split; [apply (opens_segs path keys recs sbuf sis' P G NK HE); try assumption; now apply seg_app_d|].
  eapply af_read; [exact LD|apply seg_app_d, S2|reflexivity|reflexivity|reflexivity].
Qed.

(** *** Closing again *)
Notation kk2 := (kkey path keys e3).
Notation d2 := (dir1 path keys e3).
Lemma again_save g L : f_io g = IOWrite L -> small g e3 -> d_seekdir (f_dir g) = 100 -> e3 + k_nbytes kk2 <= kStartBigFile ->
  save_keys d1 g = (f_set_io (f_end g (e3 + k_nbytes kk2)) (IOWrite (L ++ rec_writes kk2)), Ok d2).
Proof.
  intros IO SM SD He. destruct CS as [_ LL G Hn HE SO SC SR SB S4 CF]. destruct (closed_sizes path keys recs sbuf P HE) as (Z0 & Z1 & Z2 & Z3 & Z4 & _).
  assert (PE : 100 <= e3) by lia. clear - P G Hn IO SM SD He PE. revert SM He PE. generalize e3. intros E SM He PE.
  unfold kkey in *. rewrite mk_key_nbytes in *.
  pose proof (names_ok_dir path P) as N. pose proof (key_len_pos _ _ _ N) as Hkl.
  set (kl := key_len_for path [] (bs "TDirectory") false) in *.
  pose proof (zlen_nonneg (concat (map khdr keys))) as Hc. rewrite keys_buf_len in He |- *.
  pose proof (zlen_nonneg keys) as Hz.
  unfold save_keys. unfold fbind at 1, fgets at 1. rewrite (file_big_small _ E SM). cbv zeta.
  unfold dir1 at 1. cbn [d_keys d_set_keys d_set_saved]. rewrite sum_keylen by exact G. rewrite Z.add_0_r.
  unfold fbind at 1, flift at 1. unfold kStartBigFile in He. rewrite add_i32_ok by (red; lia). rewrite Z.add_0_r.
  unfold fbind at 1. change (d_name d1) with path. change (d_title d1) with (@nil Z).
  destruct (key_new_k g E path [] (bs "TDirectory") (keys_buf keys)
              (4 + zlen (concat (map khdr keys)))) as (k & HK & K1 & K2 & K3 & K4);
    [exact SM|lia|apply keys_buf_len|exact SD|fold kl; unfold kStartBigFile; lia|fold kl; lia|].
  rewrite HK. fold kl.
  unfold fbind at 1, flift at 1.
  rewrite (writes_wrun _ (keys_buf keys)).
  2: { unfold keys_buf. change (d_keys d1) with keys. rewrite to_i32_id by (red; lia). eapply writes_bind; [apply writes_int|]. intros _.
       now apply writes_keys. }
  unfold fbind. rewrite K1. erewrite key_write_ok; [|exact IO|].
  2: { apply mk_key_good; [exact N|lia|rewrite keys_buf_len; fold kl; unfold kStartBigFile; lia|red; lia]. }
  unfold fret. rewrite K2, K3. reflexivity.
Qed.

Lemma again_close g r : zlen (f_disk f) <= 1000000000 -> close real_db f = (g, r) ->
  writes_of g = (log ++ close_log path keys sbuf e) ++ rec_writes kk2 ++ [(100 + nbname path, dirb d2)].
Proof.
  intros HL H. destruct af_len as (L1 & L2 & L3 & L4). rewrite L1 in HL.
  assert (SM : small f e3).
  { destruct CS as [_ LL G NK HE SO SC SR SB S4 CF]. destruct (closed_sizes path keys recs sbuf P HE) as (Z0 & Z1 & Z2 & Z3 & Z4 & _).
    split; [exact L2|]. rewrite CF. split; [eexists; reflexivity|]. split; [reflexivity|]. split; [reflexivity|]. unfold kStartBigFile. lia. }
  assert (HN : k_nbytes kk2 = k_nbytes kk) by reflexivity.
  assert (ZZ : 100 <= e3 /\ e3 + k_nbytes kk2 <= 2000000000 /\ 0 <= k_nbytes kk2).
  { destruct CS as [_ LL G NK HE SO SC SR SB S4 CF]. destruct (closed_sizes path keys recs sbuf P HE) as (Z0 & Z1 & Z2 & Z3 & Z4 & _). rewrite HN. lia. }
  assert (FD : f_dir f = d1 /\ f_io f = IOWrite (log ++ close_log path keys sbuf e)) by (destruct CS as [_ LL G NK HE SO SC SR SB S4 ->]; split; reflexivity).
  destruct FD as (FD & FI).
  unfold close in H. unfold fbind at 1, fgets at 1 in H. rewrite FD in H. unfold fbind at 1 in H.
  rewrite (again_save f _ FI SM) in H; [|rewrite FD; reflexivity|unfold kStartBigFile; lia].
  unfold fbind at 1 in H.
  match type of H with context[write_dir d2 ?x] => rewrite (write_dir_ok path keys e3 x ((log ++ close_log path keys sbuf e) ++ rec_writes kk2) P) in H; [|red; lia|red; lia|reflexivity] end.
  unfold fbind at 1, fmodify at 1 in H. cbv beta iota in H. unfold fbind at 1 in H.
  match type of H with context[write_sinfos real_db ?x] => set (g1 := x) in H end.
  assert (W1 : writes_of g1 = (log ++ close_log path keys sbuf e) ++ rec_writes kk2 ++ [(100 + nbname path, dirb d2)]).
  { unfold g1, writes_of. cbn [f_io f_set_dir f_set_io]. now rewrite <- app_assoc. }
  assert (NZ : fh_seekinfo (f_hdr g1) <> 0).
  { change (fh_seekinfo (f_hdr g1)) with (fh_seekinfo (f_hdr f)). rewrite L3. 
    destruct CS as [_ LL G NK HE SO SC SR SB S4 CF]. destruct (closed_sizes path keys recs sbuf P HE) as (Z0 & Z1 & Z2 & Z3 & Z4 & _). lia. }
  clearbody g1. rewrite <- W1. clear - NZ H. unfold write_sinfos in H. unfold fbind at 1 in H.
  pose proof (info_find_deep real_db g1) as I1. pose proof (find_deep_io real_db g1) as I2. destruct (find_deep real_db g1) as [g2 [[]|x| | |]]; cbn [fst] in I1, I2;
    try (injection H as <- _; unfold writes_of; now rewrite I2).
  unfold fbind at 1, fgets at 1 in H. unfold fbind at 1, fgets at 1 in H.
  destruct (Z.eqb_spec (fh_seekinfo (f_hdr g2)) 0) as [E|E]; [congruence|]. cbn [negb] in H. unfold flift in H. injection H as <- _. unfold writes_of. now rewrite I2.
Qed.

Lemma again_opens : zlen (f_disk f) <= 1000000000 ->
  exists fo, open_file (disk_of ((log ++ close_log path keys sbuf e) ++ rec_writes kk2 ++ [(100 + nbname path, dirb d2)])) = Ok fo /\ shows_tables fo ts.
Proof.
  intros HL. destruct af_len as (L1 & _). rewrite L1 in HL. destruct af_segs as (S0 & S1 & S2 & S3 & S5 & S6). pose proof af_disk as AD.
  assert (HN : k_nbytes kk2 = k_nbytes kk) by reflexivity.
  pose proof CS as [_ LL G NK HE SO SC SR SB S4 CF]. destruct (closed_sizes path keys recs sbuf P HE) as (Z0 & Z1 & Z2 & Z3 & Z4 & KG & SG & FG & LK & LS & LF).
  assert (KG2 : key_good kk2) by (apply kkey_good; [exact P|lia|unfold kStartBigFile; lia]).
  assert (DO1 : dir_ok d1 /\ dir_ok d2) by (split; apply dir0_ok; try exact P; red; lia). destruct DO1 as (DO1 & DO2).
  destruct (dirb_ok _ DO1) as (LD1 & _). destruct (dirb_ok _ DO2) as (LD2 & _).
  change (dir_len d1) with 48 in LD1. change (dir_len d2) with 48 in LD2.
  pose proof (name_rec_len path P) as LN.
  assert (E0D : E0 path = 100 + nbname path + 60) by (unfold E0; lia).
  destruct (hdr1_ok path keys sbuf e P ltac:(lia) HE) as (HO1 & HB1). pose proof (hdr_small_len _ HO1 HB1) as LH.
  rewrite app_assoc, disk_of_snoc. cbn [fst snd].
  assert (DA : disk_of ((log ++ close_log path keys sbuf e) ++ rec_writes kk2) = f_disk f ++ rec kk2).
  { rewrite disk_of_app, <- AD. unfold rec_writes. cbn [fold_left fst snd]. change (k_seek kk2) with e3. destruct (key_good_hdr _ KG2) as (<- & _).
    rewrite (dwrite_append (f_disk f)) by (symmetry; exact L1). rewrite dwrite_append by (rewrite zlen_app; lia). unfold rec. now rewrite app_assoc. }
  rewrite DA. set (D' := f_disk f ++ rec kk2). pose proof (rec_len _ KG2 eq_refl) as LK2.
  assert (LD' : zlen D' = e3 + k_nbytes kk2) by (unfold D'; rewrite zlen_app; lia).
  assert (KS : seg D' e3 (rec kk2)) by (exists (f_disk f), []; rewrite app_nil_r; split; [reflexivity|exact L1]).
  assert (UP : forall p s, seg (f_disk f) p s -> seg D' p s) by (intros; now apply seg_app_d).
  set (D2 := dwrite D' (100 + nbname path) (dirb d2)).
  assert (OV : forall p s, seg D' p s -> E0 path <= p \/ p + zlen s <= 100 -> seg D2 p s).
  { intros p s S X. unfold D2. apply seg_dwrite; [exact S|lia|]. lia. }
  assert (S1' : seg D2 100 (name_rec path ++ dirb d2 ++ repeat 0 12) /\ zlen D2 = zlen D').
  { destruct (UP _ _ S1) as (a & c & ED & LA). unfold D2. rewrite ED.
    replace (a ++ (name_rec path ++ dirb d1 ++ repeat 0 12) ++ c) with ((a ++ name_rec path) ++ dirb d1 ++ repeat 0 12 ++ c) by now rewrite <- !app_assoc.
    rewrite dwrite_mid; [|rewrite zlen_app; lia|lia]. split; [|rewrite !zlen_app; lia]. exists a, c. split; [now rewrite <- !app_assoc|exact LA]. }
  destruct S1' as (S1' & LD2').
  clearbody D2 D'. clear DA AD.
  eexists. split.
  - apply (open_ok path D2 h1 d2 keys [mkSeg (fh_end h1) kStartBigFile] (map sinfo_seen (rev sis'))). constructor; try assumption; try reflexivity.
    + lia.
    + apply OV; [apply UP, S0|lia].
    + change (fh_end h1) with e3. lia.
    + exists (repeat 0 12). split; [reflexivity|exact S1'].
    + change (d_seekkeys d2) with e3. lia.
    + change (d_seekkeys d2) with e3. unfold kStartBigFile. lia.
    + change (d_seekkeys d2) with e3. apply OV; [exact KS|lia].
    + change (fh_seekfree h1) with e2. destruct (Z.ltb_spec 0 e2); [|lia]. change (fh_end h1) with (e2 + k_nbytes (fkey path e2)).
      apply read_free_ok; try assumption; try reflexivity; try lia. apply OV; [apply UP, S6|lia].
    + change (fh_seekinfo h1) with e1. destruct (Z.ltb_spec 0 e1); [|lia].
      apply (read_sinfos_ok D2 h1 sis' sbuf e1); try assumption; try reflexivity; try (change (fh_end h1) with e3; lia).
      * unfold kStartBigFile. lia.
      * apply OV; [apply UP, S5|lia].
  - eapply (af_read D2); [lia|apply OV; [apply UP, S2|lia]|reflexivity|reflexivity|reflexivity].
Qed.
End After.
