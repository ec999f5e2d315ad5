(** Sets and maps. *)
From Verif Require Import Base Bytes RBuf WBuf Values Codec CodecFacts Names Obj RObj TreeObj Decomp File Column ColRead Spec SpecRead SpecTree SpecEnds Coll SpecColl
  CollFacts ZipFacts Sample PropRead Term TermRead TermCol TermIter PropEnds PropPack.

(** ** C48: sets and maps come back *)

Lemma has_map_classes t : has_map t = true <-> c_classes t = None.
Proof. induction t as [p| |t IH|n t IH|t IH|tk _ tv _]; cbn [has_map c_classes]; try (split; discriminate); try (destruct (c_classes t); rewrite IH; split; (discriminate || auto)). split; reflexivity. Qed.

Lemma digits_value d : Forall (fun c => 48 <= c <= 57) d -> forall a, 0 <= a -> a <= fold_left (fun a c => 10 * a + (c - 48)) d a.
Proof. induction 1 as [|c d H _ IH]; intros a A; cbn [fold_left]; [lia|]. specialize (IH (10 * a + (c - 48)) ltac:(lia)). lia. Qed.
Lemma decimal_unique n d d' : length_text n d -> length_text n d' -> d = d'.
Proof.
  destruct n as [|n]; [intros (_ & H) (_ & H'); now rewrite H, H'|].
  intros ((N & F & V & Z) & _) ((N' & F' & V' & Z') & _). specialize (Z ltac:(lia)). specialize (Z' ltac:(lia)).
  rewrite <- V' in V. clear V' n. revert d' N' F' Z' V. induction d as [|c d IH] using rev_ind; [congruence|].
  intros d'. destruct d' as [|c' d' _] using rev_ind; [congruence|]. intros N' F' Z' V. clear N N'.
  apply Forall_app in F as [F F1]. apply Forall_app in F' as [F' F1']. inversion F1 as [|? ? C _]; inversion F1' as [|? ? C' _]; subst.
  rewrite !fold_left_app in V. cbn [fold_left] in V.
  assert (P : forall d, d <> [] -> Forall (fun c => 48 <= c <= 57) d -> hd 0 (d ++ [c]) <> 48 -> 1 <= fold_left (fun a c => 10 * a + (c - 48)) d 0).
  { intros e E G H. destruct G as [|x e X G]; [congruence|]. cbn [app hd] in H. cbn [fold_left].
    pose proof (digits_value e G (10 * 0 + (x - 48)) ltac:(lia)). lia. }
  assert (P' : forall d, d <> [] -> hd 0 (d ++ [c]) = hd 0 d /\ hd 0 (d ++ [c']) = hd 0 d) by (intros [|x e] E; [congruence|split; reflexivity]).
  destruct d as [|x d].
  - destruct d' as [|x' d'].
    + cbn [fold_left] in V. f_equal. f_equal. lia.
    + exfalso. destruct (P' (x' :: d') ltac:(discriminate)) as (Q1 & Q2). rewrite Q2, <- Q1 in Z'. specialize (P (x' :: d') ltac:(discriminate) F' Z'). cbn [fold_left] in V, P. lia.
  - destruct d' as [|x' d'].
    + exfalso. specialize (P (x :: d) ltac:(discriminate) F Z). cbn [fold_left] in V, P. lia.
    + destruct (P' (x :: d) ltac:(discriminate)) as (Q1 & _). rewrite Q1 in Z. destruct (P' (x' :: d') ltac:(discriminate)) as (_ & Q2). rewrite Q2 in Z'.
      set (a := fold_left _ (x :: d) 0) in *. set (b := fold_left _ (x' :: d') 0) in *.
      assert (a = b /\ c = c') as [E ->] by lia. f_equal. apply IH; auto. discriminate. discriminate.
Qed.
Lemma dec_text n : length_text n (dec (Z.of_nat n)).
Proof. split; [apply SessFacts.dec_decimal|]. intros ->. reflexivity. Qed.

Lemma classes_names t : forall l, c_classes t = Some l ->
  (forall c, In c l <-> cpp_names t c) /\ l <> [] /\ (forall c, main_name t c <-> c = hd [] l).
Proof.
  induction t as [p| |t IH|n t IH|t IH|tk _ tv _]; intros l E; cbn [c_classes] in E; try discriminate.
  - injection E as <-. change (prim_name p) with (cpp_scalar p). split; [|split; [discriminate|]].
    + intros c. split; [intros [<-|[]]; constructor|]. intros H. inversion H. now left.
    + intros c. cbn [hd]. split; [intros H; now inversion H|intros ->; constructor].
  - injection E as <-. split; [|split; [discriminate|]].
    + intros c. split; [now constructor|]. intros H. now inversion H.
    + intros c. cbn [hd]. split; [intros H; now inversion H|intros ->; constructor].
  - destruct (c_classes t) as [l'|]; [|discriminate]. injection E as <-. destruct (IH l' eq_refl) as (I1 & I2 & I3). split; [|split].
    + intros c. rewrite in_map_iff. split.
      * intros (x & <- & X). constructor. now apply I1.
      * intros H. inversion H as [| |? x X| |]; subst. exists x. split; [reflexivity|now apply I1].
    + destruct l'; [congruence|discriminate].
    + intros c. destruct l' as [|x l']; [congruence|]. cbn [map hd] in *. split; [intros H; inversion H as [| |? y Y| |]; subst; apply I3 in Y; now subst|].
      intros ->. constructor. now apply I3.
  - destruct (c_classes t) as [l'|]; [|discriminate]. injection E as <-. destruct (IH l' eq_refl) as (I1 & I2 & I3). split; [|split].
    + intros c. rewrite in_map_iff. split.
      * intros (x & <- & X). constructor; [now apply I1|apply dec_text].
      * intros H. inversion H as [| | |? ? x d X D|]; subst. exists x. split; [now rewrite (decimal_unique _ _ _ D (dec_text n))|now apply I1].
    + destruct l'; [congruence|discriminate].
    + intros c. destruct l' as [|x l']; [congruence|]. cbn [map hd] in *. split.
      * intros H; inversion H as [| | |? ? y d Y D|]; subst. apply I3 in Y as ->. now rewrite (decimal_unique _ _ _ D (dec_text n)).
      * intros ->. constructor; [now apply I3|apply dec_text].
  - destruct (c_classes t) as [l'|]; [|discriminate]. injection E as <-. destruct (IH l' eq_refl) as (I1 & I2 & I3). split; [|split; [discriminate|]].
    + intros c. split; [intros [<-|[]]; constructor; now apply I3|]. intros H. inversion H as [| | | |? x X]; subst. apply I3 in X as ->. now left.
    + intros c. cbn [hd]. split; [intros H; inversion H as [| | | |? y Y]; subst; apply I3 in Y; now subst|]. intros ->. constructor. now apply I3.
Qed.

(** A column is read as a type only under one of the names of the type. *)
Theorem C48_types_are_checked {L : decoders} d sis t b name : has_map t = false -> item_type_name sis b = Ok name -> ~ cpp_names t name ->
  as_iter_c d sis t b = Err ETypeMismatch.
Proof.
  intros M N H. unfold as_iter_c. destruct (c_classes t) as [l|] eqn:E; [|apply has_map_classes in E; congruence]. rewrite N. cbn [rbind].
  destruct (existsb (beqb name) l) eqn:B; [|reflexivity]. exfalso. apply H. apply existsb_exists in B as (x & X & B). apply beqb_eq in B as <-.
  now apply (classes_names t l E).
Qed.
Example set_names0 : cpp_names (CVec (CSet (CArr 12 (CPrim I32)))) (bs "vector<set<int32_t[12]>>") /\ ~ cpp_names (CSet CString) (bs "set<char*>") /\
  cpp_names (CVec CString) (bs "vector<char*>") /\ has_map (CSet CString) = false.
Proof.
  split; [|split; [|split; [|reflexivity]]].
  - apply (names_vec _ (bs "set<int32_t[12]>")). apply (names_set _ (bs "int32_t[12]")). apply (main_arr 12 (CPrim I32) (bs "int32_t") (bs "12")); [apply main_prim|exact (dec_text 12)].
  - intros H. inversion H as [| | | |? c C]. inversion C; subst. discriminate.
  - apply (names_vec _ (bs "char*")). apply names_string. right. now left.
Qed.

(** Every entry of every basket, for any nesting of vectors, arrays, sets and maps. *)
Theorem C48_sets_and_maps_come_back {L : decoders} d sis t b h vss :
  br_subs b = [] ->
  (has_map t = true \/ exists name, item_type_name sis b = Ok name /\ cpp_names t name) ->
  (exists chs, baskets_buffer d sis b = Ok chs /\
    Forall2 (fun c vs => exists n pieces, c = Irregular n pieces h /\
      Forall2 (fun p v => exists hd w, p = hd ++ w /\ (if headed t then entry_header h hd else hd = []) /\ laid t v w) pieces vs) chs vss) ->
  as_iter_c d sis t b = Ok (concat vss).
Proof.
  intros S N (chs & B & C).
  assert (G : as_iter_unchecked_c d sis t b = Ok (concat vss)).
  { unfold as_iter_unchecked_c, get_basket. rewrite S, B. cbn [rbind].
    assert (E : res_map (read_chunk (cunmarshal t)) chs = Ok vss); [|now rewrite E].
    clear B. induction C as [|c vs chs vss (n & pieces & -> & P) _ IH]; [reflexivity|]. cbn [res_map].
    assert (E : read_chunk (cunmarshal t) (Irregular n pieces h) = Ok vs); [|now rewrite E; cbn [rbind]; rewrite IH].
    cbn [read_chunk]. clear IH. induction P as [|p v pieces vs (hd & w & -> & EH & W) _ IH]; [reflexivity|]. cbn [res_map].
    rewrite (entry_laid t v w h hd W EH). cbn [unwrap rbind]. now rewrite IH. }
  unfold as_iter_c. destruct N as [N|(name & -> & N)]; [apply has_map_classes in N as ->; exact G|].
  destruct (c_classes t) as [names|] eqn:E; [|exact G]. cbn [rbind]. pose proof (proj2 (proj1 (classes_names t names E) name) N) as I.
  replace (existsb (beqb name) names) with true; [exact G|]. symmetry. apply existsb_exists. exists name. split; [exact I|now apply beqb_eq].
Qed.

(** A column of maps from strings to sets of numbers, and how two of its entries are
    stored. *)
Definition map0 : cval := CMapOf [(CStr (bs "one"), CSetOf [CInt 1]); (CStr (bs "two"), CSetOf [CInt 1; CInt 2])].
Definition map_bytes0 : bytes :=
  [0; 0; 0; 2] ++ [64; 0; 0; 12; 0; 9] ++ [3; 111; 110; 101; 3; 116; 119; 111] ++
  [64; 0; 0; 22; 0; 9] ++ [0; 0; 0; 1; 0; 1; 0; 0; 0; 2; 0; 1; 0; 2].
Example map_laid0 : laid (CMap CString (CSet (CPrim I16))) map0 map_bytes0.
Proof.
  exists [[3; 111; 110; 101]; [3; 116; 119; 111]], [[0; 0; 0; 1; 0; 1]; [0; 0; 0; 2; 0; 1; 0; 2]],
    ([64; 0; 0; 12; 0; 9] ++ [3; 111; 110; 101; 3; 116; 119; 111]), ([64; 0; 0; 22; 0; 9] ++ [0; 0; 0; 1; 0; 1; 0; 0; 0; 2; 0; 1; 0; 2]).
  assert (S : forall s, str_ok s -> laid CString (CStr s) (str_bytes s)).
  { intros s K. split; [now apply sample_text|]. apply writes_appends, writes_string. destruct K. pose proof (zlen_nonneg s). red. lia. }
  assert (T : forall z, 0 <= z < 100 -> laid (CPrim I16) (CInt z) [0; z]).
  { intros z H. split; [unfold scalar, scalar_range; cbn [fst snd]; lia|]. unfold scalar_bytes, be. rewrite Z.pow_0_r, Z.div_1_r.
    change (256 ^ Z.of_nat 1) with 256. rewrite (Z.div_small z 256), (Z.mod_small z 256) by lia. reflexivity. }
  split; [repeat constructor; apply S; (split; [vm_compute; reflexivity|vm_compute; reflexivity])|].
  split.
  { constructor; [|constructor; [|constructor]].
    - exists [[0; 1]]. split; [constructor; [apply T; lia|constructor]|]. split; [repeat constructor; cbn; intuition discriminate|]. repeat split.
    - exists [[0; 1]; [0; 2]]. split; [constructor; [apply T; lia|constructor; [apply T; lia|constructor]]|]. split; [repeat constructor; cbn; intuition discriminate|]. repeat split. }
  split; [repeat constructor; cbn; intuition discriminate|]. split; [reflexivity|]. split; [reflexivity|].
  split; [exists [64; 0; 0; 12; 0; 9]; split; [split; [reflexivity|right; eexists; reflexivity]|reflexivity]|].
  split; [exists [64; 0; 0; 22; 0; 9]; split; [split; [reflexivity|right; eexists; reflexivity]|reflexivity]|]. reflexivity.
Qed.
Example map_read0 : rrun 0 (set_skip_header (Some 6) ;;; cunmarshal (CMap CString (CSet (CPrim I16)))) ([64; 0; 0; 40; 0; 9] ++ map_bytes0) = Ok map0.
Proof. apply entry_laid; [apply map_laid0|]. split; [reflexivity|right; eexists; reflexivity]. Qed.

(** The vector column of the sample file, read as sets without regard to its type. *)
Definition vectors0 : branch := Eval vm_compute in
  match branches0 with [x; v; s; a; y] => v | _ => parent [] end.
Example sets_read0 :
  as_iter_unchecked_c disk0 [] (CVec (CPrim F64)) vectors0 = Ok [CList [CInt 7; CInt 9]; CList []] /\
  as_iter_unchecked_c disk0 [] (CSet (CPrim I64)) vectors0 = Ok [CSetOf [CInt 7; CInt 9]; CSetOf []].
Proof. split; vm_compute; reflexivity. Qed.

(** Whatever the bytes are: a set has no element twice, and a map has one value for each
    key. *)
Lemma read_plain t : hashable t = true -> forall r v r', cunmarshal t r = Ok (v, r') -> plain v.
Proof.
  assert (RP : forall (m : R cval), (forall r v r', m r = Ok (v, r') -> plain v) -> forall n r l r', repeatM n m r = Ok (l, r') -> Forall plain l).
  { intros m Hm. induction n as [|n IH]; intros r l r' E; cbn [repeatM] in E; [injection E as <- _; constructor|].
    unfold bind, ret in E. destruct (m r) as [(x, r1)|e| | |] eqn:E1; try discriminate. destruct (repeatM n m r1) as [(l1, r2)|e| | |] eqn:E2; try discriminate.
    injection E as <- _. constructor; eauto. }
  induction t as [p| |t IH|n t IH|t IH|tk IHk tv IHv]; cbn [hashable cunmarshal]; intros H r v r' E; try discriminate H; unfold bind, ret in E.
  - destruct (read_prim p r) as [(x, r1)|e| | |]; try discriminate. injection E as <- _. exact I.
  - destruct (do_skip_header r) as [(x, r1)|e| | |]; try discriminate. destruct (read_string r1) as [(y, r2)|e| | |]; try discriminate. injection E as <- _. exact I.
  - destruct (do_skip_header r) as [(x, r1)|e| | |]; try discriminate. destruct (read_i32 r1) as [(n, r2)|e| | |]; try discriminate.
    destruct (n <? 0); [discriminate|]. destruct (set_skip_header None r2) as [(y, r3)|e| | |]; try discriminate.
    destruct (repeatM (Z.to_nat n) (cunmarshal t) r3) as [(l, r4)|e| | |] eqn:E1; try discriminate. injection E as <- _. apply plain_list. eapply RP; [|exact E1]. eauto.
  - destruct (repeatM n (cunmarshal t) r) as [(l, r4)|e| | |] eqn:E1; try discriminate. injection E as <- _. apply plain_list. eapply RP; [|exact E1]. eauto.
Qed.
Lemma repeat_plain {B} t (k : R B) : hashable t = true -> forall n r l r', repeatM n (x <- cunmarshal t ;; k ;;; ret x) r = Ok (l, r') -> Forall plain l.
Proof.
  intros H. induction n as [|n IH]; intros r l r' E; cbn [repeatM] in E; [injection E as <- _; constructor|].
  unfold bind, ret in E. destruct (cunmarshal t r) as [(x, r1)|e| | |] eqn:E1; try discriminate. destruct (k r1) as [(y, r2)|e| | |]; try discriminate.
  match type of E with match ?m with _ => _ end = _ => destruct m as [(l1, r3)|e| | |] eqn:E2; try discriminate end.
  injection E as <- _. constructor; [eapply read_plain; eauto|]. eapply IH. exact E2.
Qed.
Theorem C48_sets_have_no_duplicates t r v r' : hashable t = true -> cunmarshal (CSet t) r = Ok (v, r') ->
  exists l, v = CSetOf l /\ NoDup l.
Proof.
  intros H E. cbn [cunmarshal] in E. unfold bind, ret in E.
  destruct (do_skip_header r) as [(x, r1)|e| | |]; try discriminate. destruct (read_i32 r1) as [(n, r2)|e| | |]; try discriminate.
  destruct (n <? 0); [discriminate|]. destruct (set_skip_header None r2) as [(y, r3)|e| | |]; try discriminate.
  destruct (repeatM (Z.to_nat n) (cunmarshal t) r3) as [(l, r4)|e| | |] eqn:E1; try discriminate. injection E as <- _. eexists. split; [reflexivity|].
  apply set_of_gen; [|constructor]. clear - H E1. revert r3 l r4 E1. generalize (Z.to_nat n) as m. induction m as [|m IH]; intros r3 l r4 E1; cbn [repeatM] in E1; [injection E1 as <- _; constructor|].
  unfold bind, ret in E1. destruct (cunmarshal t r3) as [(x, r1)|e| | |] eqn:E; try discriminate. destruct (repeatM m (cunmarshal t) r1) as [(l1, r2)|e| | |] eqn:E2; try discriminate.
  injection E1 as <- _. constructor; [eapply read_plain; eauto|eauto].
Qed.
Lemma bind_back {A B} (m : R A) (k : A -> R B) r x : bind m k r = Ok x -> exists a r1, m r = Ok (a, r1) /\ k a r1 = Ok x.
Proof. unfold bind. destruct (m r) as [(a, r1)|e| | |]; try discriminate. eauto. Qed.
Theorem C48_maps_have_one_value_per_key tk tv r v r' : hashable tk = true -> cunmarshal (CMap tk tv) r = Ok (v, r') ->
  exists l, v = CMapOf l /\ NoDup (map fst l).
Proof.
  intros H E. cbn [cunmarshal] in E.
  apply bind_back in E as (x & r1 & _ & E). apply bind_back in E as (n & r2 & _ & E). destruct (n <? 0); [discriminate|].
  apply bind_back in E as (y & r3 & _ & E). apply bind_back in E as (ks & r4 & E1 & E). apply bind_back in E as (z & r5 & _ & E).
  apply bind_back in E as (vs & r6 & _ & E).
  injection E as <- _. eexists. split; [reflexivity|]. apply map_of_nodup. apply repeat_plain in E1; [|exact H]. clear - E1.
  revert vs; induction E1 as [|k ks P _ IH]; intros [|v vs]; cbn [combine]; constructor; auto.
Qed.
(** If the file repeats a key, the last of its values counts. *)
Theorem C48_the_last_value_counts tk tv l ks vs wk wv h hd : hashable tk = true ->
  Forall2 (laid tk) (map fst l) ks -> Forall2 (laid tv) (map snd l) vs -> zlen l < 2 ^ 30 -> column_of tk ks wk -> column_of tv vs wv -> entry_header h hd ->
  exists m, rrun 0 (set_skip_header (Some h) ;;; cunmarshal (CMap tk tv)) (hd ++ be 4 (zlen l) ++ wk ++ wv) = Ok (CMapOf m) /\
    NoDup (map fst m) /\
    forall k v, In k (map fst l) -> (In (k, v) m <-> exists a b, l = a ++ (k, v) :: b /\ ~ In k (map fst b)).
Proof.
  intros HK FK FV N CK CV EH. exists (map_of l). pose proof (zlen_nonneg l) as NN.
  assert (P : Forall plain (map fst l)) by (eauto using hash_ws).
  assert (PL : Forall (fun p => plain (fst p)) l). { clear - P. induction l as [|x l IH]; constructor; inversion P; auto. }
  assert (G : rd (Some h) (cunmarshal (CMap tk tv)) (hd ++ be 4 (zlen l) ++ wk ++ wv) (CMapOf (map_of l)) (fun _ => True)).
  { cbn [cunmarshal]. eapply rd_bind; [now apply skip_header|]. intros s0 _.
    eapply rd_bind; [apply rd_int4; lia|]. intros s1 _. destruct (Z.ltb_spec (zlen l) 0); [lia|].
    change (wk ++ wv) with ([] ++ wk ++ wv). eapply rd_bind; [apply rd_set|]. intros s2 <-.
    pose proof (column_ok tk (reads_laid tk) (map fst l) ks wk FK CK (unheaded_enters tk)) as RK.
    pose proof (column_ok tv (reads_laid tv) (map snd l) vs wv FV CV (unheaded_enters tv)) as RV.
    rewrite map_length in RK, RV. rewrite len_nat.
    eapply rd_bind; [exact RK|]. intros s3 _. change wv with ([] ++ wv). eapply rd_bind; [apply rd_set|]. intros s4 <-.
    rewrite <- (app_nil_r wv). eapply rd_bind; [exact RV|]. intros s5 U.
    replace (combine (map fst l) (map snd l)) with l by (clear; induction l as [|(a, b) l IH]; cbn; congruence). now apply rd_ret. }
  split.
  { destruct (G [] [] 0 []) as (s & _ & E'). unfold rrun, r_new. unfold set_skip_header, modify. unfold bind at 1. unfold r_set_skip. cbn [rp rc roff rrefs].
    cbn [app] in E'. rewrite app_nil_r in E'. rewrite (@zlen_nil Z) in E'. now rewrite E'. }
  split; [now apply map_of_nodup|]. intros k v IK. assert (Pk : plain k) by (rewrite Forall_forall in P; auto).
  (* lookups and membership *)
  assert (GI : forall m, Forall (fun p => plain (fst p)) m -> NoDup (map fst m) -> (In (k, v) m <-> map_get m k = Some v)).
  { clear - Pk. induction m as [|(a, b) m IH]; intros PM ND; [cbn; split; [tauto|discriminate]|]. inversion PM as [|? ? Pa PM']; subst. inversion ND as [|? ? NA ND']; subst.
    cbn [map_get In fst] in *. destruct (ceqb a k) eqn:E.
    - apply ceqb_eq in E; [|exact Pa]. subst a. split; [intros [X|X]; [congruence|exfalso; apply NA; exact (in_map fst _ _ X)]|intros X; injection X as ->; auto].
    - rewrite <- (IH PM' ND'). split; [intros [X|X]; [injection X as -> ->; rewrite (proj2 (ceqb_eq k k Pk) eq_refl) in E; discriminate|exact X]|auto]. }
  assert (PM : Forall (fun p => plain (fst p)) (map_of l)).
  { unfold map_of. assert (PA : Forall (fun p : cval * cval => plain (fst p)) []) by constructor. revert PA. generalize (@nil (cval * cval)) as acc.
    clear - PL. induction PL as [|x l Px _ IH]; intros acc PA; cbn [fold_left]; [exact PA|]. apply IH. now apply map_insert_plain. }
  rewrite (GI _ PM (map_of_nodup _ PL)). unfold map_of. rewrite (map_of_get l k PL Pk []) by constructor. cbn [map_get].
  clear - PL Pk. assert (GL : forall m, Forall (fun p : cval * cval => plain (fst p)) m -> (map_get m k = Some v <-> exists a b, m = a ++ (k, v) :: b /\ ~ In k (map fst a))).
  { induction m as [|(x, y) m IH]; intros PM; cbn [map_get]; [split; [discriminate|intros (a & b & E & _); destruct a; discriminate E]|].
    inversion PM as [|? ? Px PM']; subst. cbn [fst] in Px. destruct (ceqb x k) eqn:E.
    - apply ceqb_eq in E; [|exact Px]. subst x. split.
      + intros X. injection X as ->. exists [], m. split; [reflexivity|tauto].
      + intros (a & b & E & NI). destruct a as [|(c, c') a]; [injection E as -> _; reflexivity|]. injection E as <- _ _. cbn [map In fst] in NI. tauto.
    - rewrite (IH PM'). split.
      + intros (a & b & -> & NI). exists ((x, y) :: a), b. split; [reflexivity|]. cbn [map In fst]. intros [->|X]; [|tauto]. rewrite (proj2 (ceqb_eq k k Pk) eq_refl) in E. discriminate.
      + intros (a & b & E2 & NI). destruct a as [|(c, c') a]; cbn [app] in E2.
        * injection E2 as -> _ _. rewrite (proj2 (ceqb_eq k k Pk) eq_refl) in E. discriminate.
        * injection E2 as <- <- ->. cbn [map In fst] in NI. exists a, b. split; [reflexivity|tauto]. }
  replace (match map_get (rev l) k with Some v0 => Some v0 | None => None end) with (map_get (rev l) k) by (destruct (map_get (rev l) k); reflexivity).
  rewrite GL by (apply Forall_rev, PL). split.
  - intros (a & b & E & NI). exists (rev b), (rev a). split.
    + rewrite <- (rev_involutive l), E, rev_app_distr. cbn [rev]. now rewrite <- app_assoc.
    + rewrite map_rev, <- in_rev. exact NI.
  - intros (a & b & -> & NI). exists (rev b), (rev a). split; [rewrite rev_app_distr; cbn [rev]; now rewrite <- app_assoc|]. rewrite map_rev, <- in_rev. exact NI.
Qed.

(** Types without sets and maps are read as [as_iter] reads them. *)
Lemma res_map_emb {A B C} (g : A -> res B) (g' : A -> res C) (f : B -> C) l :
  (forall a, g' a = (x <-? g a ;; Ok (f x))) -> res_map g' l = (x <-? res_map g l ;; Ok (map f x)).
Proof.
  intros E. induction l as [|a l IH]; [reflexivity|]. cbn [res_map]. rewrite E. destruct (g a); cbn [rbind]; try reflexivity.
  rewrite IH. destruct (res_map g l); reflexivity.
Qed.
Lemma rrun_emb {A B} (m : R A) (m' : R B) f off b : (forall r, m' r = (x <- m ;; ret (f x)) r) -> rrun off m' b = (x <-? rrun off m b ;; Ok (f x)).
Proof. intros E. unfold rrun. rewrite E. unfold bind, ret. destruct (m (r_new b off)) as [(x, r)|e| | |]; reflexivity. Qed.
Lemma unwrap_emb {A B} (r : res A) (f : A -> B) : unwrap (x <-? r ;; Ok (f x)) = (x <-? unwrap r ;; Ok (f x)).
Proof. destruct r; reflexivity. Qed.
Lemma zip_collect_emb {A B} (g : bytes -> res A) (g' : bytes -> res B) (f : A -> B) : (forall b, g' b = (x <-? g b ;; Ok (f x))) ->
  forall n z, zip_collect g' n z = (x <-? zip_collect g n z ;; Ok (map f x)).
Proof.
  intros E. induction n as [|n IH]; intros z; [reflexivity|]. cbn [zip_collect]. destruct (zip_next z) as [(o, z1)|e| | |]; cbn [rbind]; try reflexivity.
  destruct o as [b|]; [|reflexivity]. rewrite E. destruct (g b); cbn [rbind]; try reflexivity. rewrite IH. destruct (zip_collect g n z1); reflexivity.
Qed.
Lemma get_basket_emb {L : decoders} {A B} d sis (m : R A) (m' : R B) f b : (forall r, m' r = (x <- m ;; ret (f x)) r) ->
  get_basket d sis m' b = (x <-? get_basket d sis m b ;; Ok (map f x)).
Proof.
  intros E. unfold get_basket. destruct (br_subs b) as [|s subs].
  - destruct (baskets_buffer d sis b) as [chs|e| | |]; cbn [rbind]; try reflexivity.
    rewrite (res_map_emb (read_chunk m) (read_chunk m') (map f)).
    + destruct (res_map (read_chunk m) chs); cbn [rbind]; try reflexivity. now rewrite concat_map.
    + intros [n size buf|n data h]; cbn [read_chunk].
      * destruct (n <? 0); [reflexivity|]. rewrite (rrun_emb (repeatM (Z.to_nat n) m) _ (map f)); [apply unwrap_emb|]. intros r. now apply repeat_map.
      * apply res_map_emb. intros p. rewrite (rrun_emb (set_skip_header (Some h) ;;; m) _ f); [apply unwrap_emb|]. intros r. unfold bind. destruct (set_skip_header (Some h) r) as [(x, r1)|e| | |]; try reflexivity. apply E.
  - destruct (res_map _ _) as [its|e| | |]; cbn [rbind]; try reflexivity. unfold zip_all. apply zip_collect_emb. intros p. rewrite (rrun_emb m _ f _ _ E). apply unwrap_emb.
Qed.
Theorem C48_other_types_as_before {L : decoders} d sis t b : as_iter_c d sis (emb t) b = (vs <-? as_iter d sis t b ;; Ok (map embv vs)).
Proof.
  unfold as_iter_c, as_iter. rewrite emb_classes. destruct (item_type_name sis b) as [name|e| | |]; cbn [rbind]; try reflexivity.
  destruct (existsb (beqb name) (r_classes t)); [|reflexivity]. apply get_basket_emb, emb_reads.
Qed.

(** Reading sets and maps ends, whatever the bytes are. *)
Lemma fw_set s : (match s with Some h => 0 <= h | None => True end) -> fw 0 (set_skip_header s).
Proof. intros H r K. unfold set_skip_header, modify. cbn. repeat split; try lia. exact H. Qed.
Lemma fw0 {A B} (m : R A) (f : A -> R B) : fw 0 m -> (forall a, fw 0 (f a)) -> fw 0 (bind m f).
Proof. intros H K. exact (fw_bind 0 0 m f H K). Qed.
Lemma fw_coll t : fw 0 (cunmarshal t).
Proof.
  induction t as [p| |t IH|n t IH|t IH|tk IHk tv IHv]; cbn [cunmarshal].
  - apply fw0; [apply (fw_le 1); [lia|apply fw_prim]|]. intros. apply fw_ret.
  - apply fw0; [apply fw_do_skip|]. intros _. apply fw0; [apply (fw_le 1); [lia|apply fw_string]|]. intros. apply fw_ret.
  - apply fw0; [apply fw_do_skip|]. intros _. apply fw0; [apply (fw_le 4); [lia|apply (fw_sint 4)]|]. intros n. destruct (n <? 0); [apply fw_panic|].
    apply fw0; [apply fw_set; exact I|]. intros _. apply fw0; [apply fw_repeat, IH|]. intros. apply fw_ret.
  - apply fw0; [apply fw_repeat, IH|]. intros. apply fw_ret.
  - apply fw0; [apply fw_do_skip|]. intros _. apply fw0; [apply (fw_le 4); [lia|apply (fw_sint 4)]|]. intros n. destruct (n <? 0); [apply fw_panic|].
    apply fw0; [apply fw_set; exact I|]. intros _. apply fw0; [apply fw_repeat, IH|]. intros. apply fw_ret.
  - assert (G : forall t, fw 0 (cunmarshal t) -> fw 0 (x <- cunmarshal t ;; set_skip_header (Some 0) ;;; ret x)).
    { intros t H. apply fw0; [exact H|]. intros x. apply fw0; [apply fw_set; lia|]. intros _. apply fw_ret. }
    apply fw0; [apply fw_do_skip|]. intros _. apply fw0; [apply (fw_le 4); [lia|apply (fw_sint 4)]|]. intros n. destruct (n <? 0); [apply fw_panic|].
    apply fw0; [apply fw_set; lia|]. intros _. apply fw0; [apply fw_repeat, G, IHk|]. intros ks.
    apply fw0; [apply fw_set; lia|]. intros _. apply fw0; [apply fw_repeat, G, IHv|]. intros. apply fw_ret.
Qed.
Theorem C46_reading_any_sets_and_maps_ends {L : decoders} d sis t b : decoders_finish L -> br_subs b = [] \/ subs_announce d sis b ->
  finishes (as_iter_c d sis t b).
Proof.
  intros HL S. apply decoders_end_of in HL. assert (G : ends (get_basket d sis (cunmarshal t) b)).
  { apply get_basket_ends; [apply fw_coll|]. destruct S as [S|S]; [auto|right; right; now apply announce_solid]. }
  unfold as_iter_c. destruct (c_classes t); [|exact G]. pose proof (ends_item_type_name sis b) as N. unfold finishes.
  destruct (item_type_name sis b); cbn [rbind]; try discriminate; [|exfalso; now apply N]. destruct (existsb _ _); [exact G|discriminate].
Qed.

(** The type of a column is not checked when maps are asked for: a column of numbers
    gives a map. *)
Theorem C48_maps_are_not_checked_refuted :
  let numbers := hd (parent []) branches0 in
  as_iter disk0 [] (TPrim I32) numbers = Ok [VInt 1; VInt (-2); VInt 3] /\
  as_iter disk0 [] (TVec (TPrim I32)) numbers = Err ETypeMismatch /\
  as_iter_c disk0 [] (CSet (CPrim I32)) numbers = Err ETypeMismatch /\
  as_iter_c disk0 [] (CMap (CPrim I32) (CPrim I32)) numbers <> Err ETypeMismatch /\
  rrun 0 (cunmarshal (CMap (CPrim I32) (CPrim I32))) content0 = Ok (CMapOf [(CInt (-2), CInt 3)]).
Proof. cbv zeta. repeat split; vm_compute; try reflexivity. discriminate. Qed.
