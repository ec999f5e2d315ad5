(** Putting objects into a file. *)
From Verif Require Export FileLay.

Definition mk_key (name title class : bytes) (cycle e : Z) (buf : bytes) : key :=
  let kl := key_len_for name title class false in
  mkKey 4 (kl + zlen buf) (zlen buf) now_ts kl cycle e 100 class name title buf.

Lemma mk_key_good name title class cycle e buf :
  names_ok name title class -> 100 <= e ->
  e + (key_len_for name title class false + zlen buf) <= kStartBigFile -> is_i16 cycle ->
  key_ok (mk_key name title class cycle e buf).
Proof.
  intros N He Hb Hc. unfold mk_key. cbv zeta.
  rewrite (Z.add_comm (key_len_for name title class false) (zlen buf)).
  apply mk_key_ok; auto; [apply zlen_nonneg|rt_side].
Qed.

Definition sis_add (sis : list sinfo) (si : sinfo) : list sinfo :=
  if existsb (fun s => beqb (si_name s) (si_name si)) sis then sis else sis ++ [si].

Lemma add_sinfo_lay path keys sis log e si :
  add_sinfo si (lay_file path keys sis log e) = (lay_file path keys (sis_add sis si) log e, Ok tt).
Proof. unfold add_sinfo, fmodify, sis_add. cbn [f_sinfos lay_file]. destruct (existsb _ _); reflexivity. Qed.

Lemma scan_cycle_ge name class ks c c' : scan_cycle name class ks c = Ok c' ->
  c <= c' /\ (forall k, In k ks -> k_name k = name -> k_class k = class /\ k_cycle k <= c') /\
  (c' = c \/ exists k, In k ks /\ k_name k = name /\ k_cycle k = c').
Proof.
  revert c; induction ks as [|k ks IH]; intros c; cbn [scan_cycle].
  - intros [= <-]. split; [lia|]. split; [intros k []|now left].
  - destruct (beqb (k_name k) name) eqn:En; cbn [negb].
    + destruct (beqb (k_class k) class) eqn:Ec; cbn [negb]; [|discriminate].
      intros H. apply IH in H as (H1 & H2 & H3). apply beqb_eq in En, Ec.
      split; [destruct (Z.ltb_spec c (k_cycle k)); lia|]. split.
      * intros k' [<-|Hin] Hn'; [|now apply H2].
        split; [exact Ec|]. destruct (Z.ltb_spec c (k_cycle k)); lia.
      * destruct H3 as [->|(k' & ? & ? & ?)]; [|right; exists k'; cbn; auto].
        destruct (Z.ltb_spec c (k_cycle k)); [|now left].
        right. exists k. cbn; auto.
    + intros H. apply IH in H as (H1 & H2 & H3). split; [lia|]. split.
      * intros k' [<-|Hin] Hn'; [|now apply H2]. apply beqb_neq in En. contradiction.
      * destruct H3 as [->|(k' & ? & ? & ?)]; [now left|right; exists k'; cbn; auto].
Qed.

(** Names given to [put]. *)
Definition put_name (name : bytes) (o : wobj) : bytes := match name with [] => o_name o | _ => name end.

Section DB.
Variable db : bytes -> Z -> option sinfo.
Set Default Proof Using "Type".

Definition put_sis (sis : list sinfo) (o : wobj) : option (list sinfo) :=
  if is_core_type (o_cls o) then Some sis
  else match db (o_cls o) (o_vers o) with None => None | Some si => Some (sis_add sis si) end.

Lemma to_i16_range z : is_i16 (to_i16 z).
Proof.
  clear db. unfold to_i16, wrap_s, sgn, wrap_u. change (256 ^ Z.of_nat 2) with 65536. pose proof (Z.mod_pos_bound z 65536 eq_refl) as B. red.
  destruct (_ <? _) eqn:E; [apply Z.ltb_lt in E|apply Z.ltb_ge in E]; lia.
Qed.

(** A small file accepts an object. *)
Lemma put_fwd path keys sis recs f name o c buf sis' :
  let n := put_name name o in
  let kl := key_len_for n (o_title o) (o_cls o) false in
  let e := E0 path + rsize recs in
  let k := mk_key n (o_title o) (o_cls o) (to_i16 (c + 1)) e buf in
  path_ok path -> lay path keys sis recs f ->
  existsb (Z.eqb 47) name = false -> names_ok n (o_title o) (o_cls o) -> beqb (o_cls o) (bs "TBasket") = false ->
  scan_cycle n (o_cls o) keys 0 = Ok c -> c <= 32767 ->
  put_sis sis o = Some sis' -> wrun kl (o_marsh o) = Ok buf -> e + (kl + zlen buf) <= kStartBigFile ->
  exists f', put_obj db name o f = (f', Ok tt) /\ lay path (keys ++ [k]) sis' (recs ++ [khdr k ++ buf]) f' /\ key_good k.
Proof.
  intros n kl e k P (log & -> & L) Hs N HB Hc Hc2 Hsi Hb He.
  pose proof (rsize_nonneg recs) as Hr. pose proof (E0_pos path P) as H0.
  pose proof (scan_cycle_ge _ _ _ _ _ Hc) as (Hc0 & _).
  pose proof (key_len_pos _ _ _ N) as Hkl. fold kl in Hkl. pose proof (zlen_nonneg buf) as Hbuf.
  assert (KO : key_ok k).
  { apply mk_key_good; [exact N|lia|fold kl; lia|apply to_i16_range]. }
  assert (KL : zlen (khdr k) = kl).
  { destruct (khdr_ok k KO) as (LK & _). rewrite LK. symmetry. now apply key_len_hdr. }
  unfold put_obj. rewrite Hs. fold (put_name name o). fold n.
  fold e. unfold fbind at 1, fgets at 1. change (d_keys (f_dir (lay_file path keys sis log e))) with keys.
  unfold fbind at 1, flift at 1. rewrite Hc.
  unfold fbind at 1, flift at 1. rewrite add_i32_ok by (red; lia).
  unfold fbind at 1.
  assert (ES : (if is_core_type (o_cls o) then fret tt
       else match db (o_cls o) (o_vers o) with Some si => add_sinfo si | None => flift Panic end)
      (lay_file path keys sis log e) = (lay_file path keys sis' log e, Ok tt)).
  { unfold put_sis in Hsi. destruct (is_core_type _); [injection Hsi as <-; reflexivity|].
    destruct (db _ _) as [si|]; [|discriminate]. injection Hsi as <-. apply add_sinfo_lay. }
  rewrite ES. clear ES.
  unfold fbind at 1. unfold key_from_object. unfold fbind at 1, fgets at 1.
  assert (SM : small (lay_file path keys sis' log e) e) by (apply lay_small; [exact P|unfold kStartBigFile in *; lia]).
  rewrite (f_keylen_small _ e) by exact SM. fold kl.
  unfold fbind at 1, flift at 1. rewrite Hb.
  rewrite (key_from_small _ e) by (auto; unfold kStartBigFile in *; lia). cbv zeta.
  rewrite lay_end. cbn [lay_file f_dir d_set_keys dir0 d_seekdir].
  unfold k_set_cycle. cbn [k_rvers k_nbytes k_objlen k_date k_keylen k_cycle k_seek k_pdir k_class k_name k_title k_buffer].
  match goal with |- context [key_write ?x] => change x with k end.
  unfold fbind. erewrite key_write_ok; [|reflexivity|exact KO].
  unfold fmodify. eexists. split; [reflexivity|].
  split; [|split; [exact KO|split; [reflexivity|now apply key_len_hdr]]].
  eexists. split.
  - unfold lay_file at 1. unfold f_set_dir, f_set_io, d_set_keys.
    cbn [f_io f_hdr f_dir f_spans f_sinfos f_id d_rvers d_ctime d_mtime d_nbkeys d_nbname d_seekdir d_seekparent d_seekkeys d_uuid d_class d_name d_title d_keys].
    rewrite rsize_snoc, zlen_app, KL.
    replace (E0 path + (rsize recs + (kl + zlen buf))) with (e + (kl + zlen buf)) by (unfold e; lia).
    reflexivity.
  - change (k_seek k) with e. change (k_keylen k) with kl. change (k_buffer k) with buf.
    replace (e + kl) with (e + zlen (khdr k)) by (rewrite KL; reflexivity).
    apply lay_log_append; [exact P|exact L|now apply khdr_nonempty|].
    destruct (khdr_ok k KO) as (_ & _ & WK & RK).
    exists (khdr k), [], k. rewrite app_nil_r, KL. change (k_class k) with (o_cls o). rewrite HB.
    repeat (split; [first [assumption|reflexivity]|]). reflexivity.
Qed.

(** ** Conversely, success and a small result imply the bounds *)
Lemma flift_inv {A} (r : res A) f f' a : flift r f = (f', Ok a) -> f' = f /\ r = Ok a.
Proof. intros H. injection H as -> ->. auto. Qed.
Lemma fgets_inv {A} (g : file -> A) f f' a : fgets g f = (f', Ok a) -> f' = f /\ a = g f.
Proof. intros H. injection H as -> ->. auto. Qed.
Lemma fmodify_inv g f f' a : fmodify g f = (f', Ok a) -> f' = g f.
Proof. intros H. now injection H as ->. Qed.

Lemma add_i32_inv a b c : add_i32 a b = Ok c -> c = a + b /\ is_i32 c.
Proof. clear db.
  unfold add_i32. destruct ((_ <=? _) && (_ <? _)) eqn:E; intros H; [|discriminate]. injection H as <-.
  split; [reflexivity|red; lia].
Qed.

Lemma set_end_inv pos f f' : set_end pos f = (f', Ok tt) ->
  f_io f' = f_io f /\ f_dir f' = f_dir f /\ f_sinfos f' = f_sinfos f /\ f_hdr f' = h_set_end (f_hdr f) pos.
Proof.
  unfold set_end, fbind, fmodify, fgets. destruct (rev _); [intros H; discriminate|].
  destruct (_ =? _); intros H; [|discriminate]. injection H as <-. repeat split.
Qed.

Lemma key_from_inv kl name title class cycle buf f f' k :
  key_from kl name title class cycle buf f = (f', Ok k) ->
  f_io f' = f_io f /\ k_seek k = fh_end (f_hdr f) /\ k_keylen k = kl /\ k_buffer k = buf /\
  k_name k = name /\ k_title k = title /\ k_class k = class /\ k_rvers k = (if file_big f then 1004 else 4).
Proof.
  unfold key_from. cbv zeta. intros H.
  apply fbind_inv in H as (f1 & ? & H1 & H). apply flift_inv in H1 as [-> _].
  apply fbind_inv in H as (f1 & ? & H1 & H). apply fgets_inv in H1 as [-> ->].
  apply fbind_inv in H as (f1 & ? & H1 & H). apply fgets_inv in H1 as [-> ->].
  apply fbind_inv in H as (f1 & ? & H1 & H). apply fgets_inv in H1 as [-> ->].
  apply fbind_inv in H as (f1 & ? & H1 & H). apply fgets_inv in H1 as [-> ->].
  apply fbind_inv in H as (f1 & out & H1 & H). apply flift_inv in H1 as [-> HC].
  unfold compress in HC. destruct (_ =? _); [|discriminate]. injection HC as <-.
  apply fbind_inv in H as (f1 & ? & H1 & H). apply flift_inv in H1 as [-> _].
  apply fbind_inv in H as (f1 & [] & H1 & H). apply set_end_inv in H1 as (H1 & H2 & H3 & H4).
  injection H as <- <-. repeat split. exact H1.
Qed.

Lemma fwrite_inv p b f f' : fwrite p b f = (f', Ok tt) ->
  exists log, f_io f = IOWrite log /\ f' = f_set_io f (IOWrite (log ++ [(p, b)])).
Proof. unfold fwrite. destruct (f_io f); intros H; try discriminate. injection H as <-. eauto. Qed.

Lemma key_write_inv k f f' : key_write k f = (f', Ok tt) ->
  exists log h, f_io f = IOWrite log /\ wrun 0 (key_marshal k) = Ok h /\
    f' = f_set_io f (IOWrite (log ++ [(k_seek k, h); (k_seek k + k_keylen k, k_buffer k)])).
Proof.
  unfold key_write. intros H.
  apply fbind_inv in H as (f1 & [] & H1 & H).
  assert (f1 = f) as -> by (unfold fwriter in H1; destruct (f_io f); congruence).
  apply fbind_inv in H as (f1 & h & H2 & H). apply flift_inv in H2 as [-> H2].
  apply fbind_inv in H as (f1 & [] & H3 & H).
  apply fwrite_inv in H3 as (log & L & ->). apply fwrite_inv in H as (log' & L' & ->).
  cbn in L'. injection L' as <-. exists log, h. rewrite <- app_assoc. auto.
Qed.

(** Lengths of written headers do not depend on the values. *)
Definition wlength {A} (m : W A) (n : Z) : Prop :=
  forall s, match m s with Ok (_, s') => exists w, s' = w_app s w /\ zlen w = n | _ => True end.
Lemma wlength_bind {A B} (m : W A) (k : A -> W B) a b : wlength m a -> (forall x, wlength (k x) b) -> wlength (bind m k) (a + b).
Proof. clear db.
  intros H1 H2 s. unfold bind. specialize (H1 s). destruct (m s) as [[x s']| | | |]; auto.
  destruct H1 as (w & -> & L). specialize (H2 x (w_app s w)). destruct (k x (w_app s w)) as [[y s'']| | | |]; auto.
  destruct H2 as (w' & -> & L'). exists (w ++ w'). rewrite w_app_app, zlen_app. split; [reflexivity|lia].
Qed.
Lemma wlength_int n z : wlength (write_int n z) (Z.of_nat n).
Proof. intros s. cbn. eexists. split; [reflexivity|apply zlen_be]. Qed.
Lemma wlength_string s : str_ok s -> wlength (write_string s) (tstring_sizeof s).
Proof. intros H st. destruct (proj1 (writes_str s H) st) as [x ->]. eexists. split; [reflexivity|apply writes_str, H]. Qed.
Lemma wlength_date t : wlength (write_date t) 4.
Proof. unfold write_date. intros s. destruct (datetime_to_u32 _); [|exact I]. apply (wlength_int 4). Qed.

Lemma key_marshal_len k : str_ok (k_name k) -> str_ok (k_title k) -> str_ok (k_class k) ->
  wlength (key_marshal k) (key_hdr_len k).
Proof.
  intros H1 H2 H3. unfold key_marshal.
  replace (key_hdr_len k) with (4 + (2 + (4 + (4 + (2 + (2 + ((if 1000 <? k_rvers k then 8 + 8 else 4 + 4) +
    (tstring_sizeof (k_class k) + (tstring_sizeof (k_name k) + tstring_sizeof (k_title k))))))))))
    by (unfold key_hdr_len; destruct (1000 <? k_rvers k); lia).
  apply wlength_bind; [apply (wlength_int 4)|]. intros _.
  destruct (_ <? 0); [intros s; exact I|].
  apply wlength_bind; [apply (wlength_int 2)|]. intros _.
  apply wlength_bind; [apply (wlength_int 4)|]. intros _.
  apply wlength_bind; [apply wlength_date|]. intros _.
  apply wlength_bind; [apply (wlength_int 2)|]. intros _.
  apply wlength_bind; [apply (wlength_int 2)|]. intros _.
  apply wlength_bind.
  { destruct (1000 <? k_rvers k).
    - apply wlength_bind; [apply (wlength_int 8)|intros _; apply (wlength_int 8)].
    - apply wlength_bind; [apply (wlength_int 4)|intros _; apply (wlength_int 4)]. }
  intros _. apply wlength_bind; [now apply wlength_string|]. intros _.
  apply wlength_bind; [now apply wlength_string|]. intros _. now apply wlength_string.
Qed.

Lemma wlength_wrun {A} (m : W A) n off h : wlength m n -> wrun off m = Ok h -> zlen h = n.
Proof.
  intros H E. unfold wrun in E. specialize (H (w_new off)). destruct (m (w_new off)) as [[x s]| | | |]; try discriminate.
  destruct H as (w & -> & L). cbn in E. injection E as <-. exact L.
Qed.

Lemma disk_two log e h b : 0 <= e -> h <> [] ->
  e + zlen h + zlen b <= zlen (disk_of (log ++ [(e, h); (e + zlen h, b)])).
Proof. clear db.
  intros He Hh.
  replace (log ++ [(e, h); (e + zlen h, b)]) with ((log ++ [(e, h)]) ++ [(e + zlen h, b)]) by now rewrite <- app_assoc.
  rewrite !disk_of_snoc. cbn [fst snd]. pose proof (zlen_nonneg h).
  destruct b as [|x b].
  - rewrite (@zlen_nil Z), Z.add_0_r. cbn [dwrite]. now apply dwrite_reach.
  - rewrite <- Z.add_assoc. rewrite Z.add_assoc. apply dwrite_reach; [lia|discriminate].
Qed.

Lemma put_bwd path keys sis recs f name o f' :
  let n := put_name name o in
  let kl := key_len_for n (o_title o) (o_cls o) false in
  let e := E0 path + rsize recs in
  path_ok path -> lay path keys sis recs f -> e <= kStartBigFile ->
  names_ok n (o_title o) (o_cls o) -> beqb (o_cls o) (bs "TBasket") = false ->
  put_obj db name o f = (f', Ok tt) -> zlen (f_disk f') <= kStartBigFile ->
  existsb (Z.eqb 47) name = false /\
  exists c buf sis', scan_cycle n (o_cls o) keys 0 = Ok c /\ put_sis sis o = Some sis' /\
    wrun kl (o_marsh o) = Ok buf /\ e + (kl + zlen buf) <= kStartBigFile.
Proof.
  intros n kl e P (log & -> & L) He N HB H HD.
  pose proof (rsize_nonneg recs) as Hr. pose proof (E0_pos path P) as H0.
  unfold put_obj in H. destruct (existsb _ name); [discriminate|]. split; [reflexivity|].
  fold (put_name name o) in H. fold n in H.
  apply fbind_inv in H as (f1 & ks & H1 & H). apply fgets_inv in H1 as [-> ->].
  apply fbind_inv in H as (f1 & c & H1 & H). apply flift_inv in H1 as [-> Hc].
  apply fbind_inv in H as (f1 & c' & H1 & H). apply flift_inv in H1 as [-> _].
  apply fbind_inv in H as (f1 & [] & HS & H).
  assert (exists sis', put_sis sis o = Some sis' /\ f1 = lay_file path keys sis' log e) as (sis' & Hsis & ->).
  { unfold put_sis. destruct (is_core_type _); [injection HS as <-; eauto|].
    destruct (db _ _) as [si|]; [|discriminate]. fold e in HS. rewrite add_sinfo_lay in HS.
    injection HS as <-. eauto. }
  clear HS.
  apply fbind_inv in H as (f2 & k & HK & H). unfold key_from_object in HK.
  assert (SM : small (lay_file path keys sis' log e) e) by (apply lay_small; [exact P|lia]).
  apply fbind_inv in HK as (f3 & kl' & H1 & HK). apply fgets_inv in H1 as [-> ->].
  rewrite (f_keylen_small _ e) in HK by exact SM. fold kl in HK.
  apply fbind_inv in HK as (f3 & buf & H1 & HK). apply flift_inv in H1 as [-> Hb].
  apply key_from_inv in HK as (I1 & I2 & I3 & I4 & I5 & I6 & I7 & I8).
  rewrite (file_big_small _ e SM) in I8. cbn in I1. cbn [lay_file f_hdr h_set_end fh_end] in I2.
  apply fbind_inv in H as (f4 & [] & HW & H). apply fmodify_inv in H. subst f'.
  apply key_write_inv in HW as (log' & h & W1 & W2 & ->).
  cbn [k_set_cycle k_seek k_keylen k_buffer] in *. rewrite I1 in W1. injection W1 as <-.
  exists c, buf, sis'. repeat split; auto.
  destruct N as (N1 & N2 & N3 & N4).
  assert (LH : zlen h = kl).
  { erewrite (wlength_wrun _ (key_hdr_len (k_set_cycle k (to_i16 c'))) 0 h); [|apply key_marshal_len|exact W2];
      cbn [k_set_cycle k_name k_title k_class]; rewrite ?I5, ?I6, ?I7; auto.
    unfold key_hdr_len, kl, key_len_for. cbn [k_set_cycle k_name k_title k_class k_rvers].
    rewrite I5, I6, I7, I8, HB. change (1000 <? 4) with false. lia. }
  unfold f_disk in HD. cbn [f_io f_set_io f_set_dir] in HD.
  rewrite I2, I3, I4 in HD. rewrite <- LH in HD at 1.
  assert (h <> []).
  { intros ->. rewrite (@zlen_nil Z) in LH. pose proof (key_len_pos n (o_title o) (o_cls o)) as HP.
    fold kl in HP. assert (29 <= kl) by exact (HP (conj N1 (conj N2 (conj N3 N4)))). lia. }
  pose proof (disk_two log e h buf ltac:(lia) ltac:(assumption)). fold e in HD. lia.
Qed.
End DB.
