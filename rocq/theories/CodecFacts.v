(** Facts that connect the model to the vocabulary of [Spec.v]: buffers, numbers,
    strings, values and records. *)
From Verif Require Import File Values.
From Verif Require Import Spec.

(** ** Buffers *)
Lemma writes_appends {X} (wm : W X) w : writes wm w -> appends wm w.
Proof. intros H s. destruct (H s) as [x E]. exists x. exact E. Qed.

Lemma reads_sk_decodes {V} (rm : R V) w v : reads_sk None rm w v -> decodes rm w v.
Proof. intros H before after off refs. apply H. Qed.

Lemma rt_round_trip {X V} n (wm : W X) (rm : R V) v : rt n wm rm v -> round_trip n wm rm v.
Proof.
  intros (w & L & Hw & Hr). exists w. split; [exact L|]. split; [now apply writes_appends|].
  apply reads_sk_decodes, Hr.
Qed.

Lemma refs_ok_nil p : refs_ok p [] [].
Proof. intros c v H. discriminate. Qed.

Lemma sim_object_round_trip {X V} A (wm : W X) (rm : R V) v :
  sim [] A wm rm v -> object_round_trip wm rm v.
Proof.
  intros H before off Hb Ho.
  destruct (H (mkW before off [] [])) as (x & s' & w & E & Ep & Eo & _ & _ & R).
  - exact Hb.
  - exact Ho.
  - reflexivity.
  - intros b [].
  - exists x, s', w. cbn [wp woff wrefs] in *. split; [exact E|]. split; [exact Ep|]. split; [exact Eo|].
    intros Hlt after.
    destruct (R ltac:(unfold wpos; rewrite Ep, Eo, zlen_app; lia) before after off [] None eq_refl (refs_ok_nil _))
      as (rr & E1 & _).
    exists rr. exact E1.
Qed.

(** ** Numbers *)
Lemma be_nth n z i : (i < n)%nat -> nth i (be n z) 0 = (z / 256 ^ Z.of_nat (n - 1 - i)) mod 256.
Proof.
  revert i; induction n as [|n IH]; intros i Hi; [lia|]. cbn [be].
  destruct i as [|i]; cbn [nth].
  - do 3 f_equal. lia.
  - rewrite IH by lia. do 4 f_equal. lia.
Qed.

Lemma be_big_endian n z : big_endian n z (be n z).
Proof. split; [apply be_length|]. intros i Hi. now apply be_nth. Qed.

Lemma big_endian_be n z w : big_endian n z w -> w = be n z.
Proof.
  intros [L H]. apply (nth_ext _ _ 0 0); [now rewrite be_length|].
  intros i Hi. rewrite L in Hi. rewrite H, be_nth by exact Hi. reflexivity.
Qed.

Lemma scalar_prim_ok p z : scalar p z <-> prim_ok p z.
Proof.
  unfold scalar. destruct p; cbn [scalar_range fst snd prim_ok];
    unfold is_i8, is_u8, is_i16, is_u16, is_i32, is_u32, is_i64, is_u64; lia.
Qed.

Lemma scalar_bytes_size p : scalar_bytes p = prim_size p.
Proof. destruct p; reflexivity. Qed.

(** ** Strings *)
Lemma enc_cp_valid c : code_point c -> utf8_valid (utf8_encode c) = true.
Proof.
  unfold code_point, utf8_encode. intros H.
  destruct (Z.ltb_spec c 128).
  { cbn [utf8_valid]. unfold in_rng. replace (_ && _) with true by (symmetry; lia). reflexivity. }
  destruct (Z.ltb_spec c 2048).
  { cbn [utf8_valid]. unfold in_rng, cont, in_rng.
    replace ((0 <=? 192 + c / 64) && (192 + c / 64 <=? 127)) with false by (symmetry; lia).
    replace ((194 <=? 192 + c / 64) && (192 + c / 64 <=? 223)) with true by (symmetry; lia).
    rewrite andb_true_r. lia. }
  destruct (Z.ltb_spec c 65536).
  { cbn [utf8_valid]. unfold in_rng, cont, in_rng.
    assert (2 <= c / 64 mod 64 + 64 * (c / 4096)) by lia.
    set (a := 224 + c / 4096). set (b := 128 + c / 64 mod 64).
    assert (A1 : 224 <= a <= 239) by lia. assert (B1 : 128 <= b <= 191) by lia.
    assert (A2 : a = 224 -> 160 <= b) by lia. assert (A3 : a = 237 -> b <= 159) by lia.
    replace ((0 <=? a) && (a <=? 127)) with false by (symmetry; lia).
    replace ((194 <=? a) && (a <=? 223)) with false by (symmetry; lia).
    match goal with |- (if ?c then _ else _) = _ => replace c with true by (symmetry; lia) end.
    rewrite andb_true_r. lia. }
  cbn [utf8_valid]. unfold in_rng, cont, in_rng.
  set (a := 240 + c / 262144). set (b := 128 + c / 4096 mod 64).
  assert (A1 : 240 <= a <= 244) by lia. assert (B1 : 128 <= b <= 191) by lia.
  assert (A2 : a = 240 -> 144 <= b) by lia. assert (A3 : a = 244 -> b <= 143) by lia.
  replace ((0 <=? a) && (a <=? 127)) with false by (symmetry; lia).
  replace ((194 <=? a) && (a <=? 223)) with false by (symmetry; lia).
  match goal with |- (if ?c then _ else _) = _ => replace c with false by (symmetry; lia) end.
  match goal with |- (if ?c then _ else _) = _ => replace c with true by (symmetry; lia) end.
  rewrite andb_true_r. lia.
Qed.

Lemma utf8_utf8_valid s : utf8 s -> utf8_valid s = true.
Proof.
  intros (cs & H & ->). induction H as [|c cs Hc _ IH]; [reflexivity|].
  cbn [flat_map]. apply utf8_app_true; [now apply enc_cp_valid|exact IH].
Qed.

Lemma utf8_cons c s : code_point c -> utf8 s -> utf8 (utf8_encode c ++ s).
Proof. intros Hc (cs & H & ->). exists (c :: cs). split; [now constructor|reflexivity]. Qed.

(** The validation of the model accepts exactly the encodings of code points. *)
Lemma utf8_valid_utf8 s : utf8_valid s = true -> utf8 s.
Proof.
  remember (length s) as n eqn:Hn. revert s Hn.
  induction n as [n IH] using lt_wf_ind. intros s Hn.
  destruct s as [|a s1]; [intros _; exists []; split; [constructor|reflexivity]|].
  cbn [utf8_valid]. unfold in_rng, cont. 
  destruct ((0 <=? a) && (a <=? 127)) eqn:Ea.
  { intros H. replace (a :: s1) with (utf8_encode a ++ s1).
    - apply utf8_cons; [red; lia|]. apply (IH (length s1)); auto. subst; cbn; lia.
    - unfold utf8_encode. replace (a <? 128) with true by (symmetry; lia). reflexivity. }
  destruct s1 as [|b s2]; [discriminate|].
  destruct ((194 <=? a) && (a <=? 223)) eqn:Eb.
  { unfold in_rng. intros H. apply andb_true_iff in H as [H1 H2].
    set (c := (a - 192) * 64 + (b - 128)).
    assert (Hc : 128 <= c < 2048) by lia.
    replace (a :: b :: s2) with (utf8_encode c ++ s2).
    - apply utf8_cons; [red; lia|]. apply (IH (length s2)); auto. subst n; cbn; lia.
    - unfold utf8_encode. replace (c <? 128) with false by (symmetry; lia).
      replace (c <? 2048) with true by (symmetry; lia).
      replace (192 + c / 64) with a by lia. replace (128 + c mod 64) with b by lia. reflexivity. }
  destruct s2 as [|c s3]; [discriminate|].
  match goal with |- (if ?q then _ else _) = _ -> _ => destruct q eqn:Ec end.
  { unfold in_rng in *. intros H. apply andb_true_iff in H as [H1 H2].
    set (x := (a - 224) * 4096 + (b - 128) * 64 + (c - 128)).
    assert (Hx : 2048 <= x < 65536 /\ (x < 55296 \/ 57344 <= x)) by lia.
    replace (a :: b :: c :: s3) with (utf8_encode x ++ s3).
    - apply utf8_cons; [red; lia|]. apply (IH (length s3)); auto. subst n; cbn; lia.
    - unfold utf8_encode. replace (x <? 128) with false by (symmetry; lia).
      replace (x <? 2048) with false by (symmetry; lia).
      replace (x <? 65536) with true by (symmetry; lia).
      replace (224 + x / 4096) with a by lia. replace (128 + x / 64 mod 64) with b by lia.
      replace (128 + x mod 64) with c by lia. reflexivity. }
  destruct s3 as [|d s4]; [discriminate|].
  match goal with |- (if ?q then _ else _) = _ -> _ => destruct q eqn:Ed end; [|discriminate].
  unfold in_rng in *. intros H. apply andb_true_iff in H as [H1 H2].
  apply andb_true_iff in H1 as [H1 H3].
  set (x := (a - 240) * 262144 + (b - 128) * 4096 + (c - 128) * 64 + (d - 128)).
  assert (Hx : 65536 <= x < 1114112) by lia.
  replace (a :: b :: c :: d :: s4) with (utf8_encode x ++ s4).
  - apply utf8_cons; [red; lia|]. apply (IH (length s4)); auto. subst n; cbn; lia.
  - unfold utf8_encode. replace (x <? 128) with false by (symmetry; lia).
    replace (x <? 2048) with false by (symmetry; lia).
    replace (x <? 65536) with false by (symmetry; lia).
    replace (240 + x / 262144) with a by lia. replace (128 + x / 4096 mod 64) with b by lia.
    replace (128 + x / 64 mod 64) with c by lia. replace (128 + x mod 64) with d by lia. reflexivity.
Qed.

Lemma utf8_iff s : utf8 s <-> utf8_valid s = true.
Proof. split; [apply utf8_utf8_valid|apply utf8_valid_utf8]. Qed.

Lemma text_str_ok s : text s <-> str_ok s.
Proof. unfold text, str_ok. rewrite utf8_iff. change (2 ^ 31) with 2147483648. tauto. Qed.

Lemma str_bytes_layout s : zlen s < 2 ^ 31 -> string_layout s (str_bytes s).
Proof.
  intros H. pose proof (zlen_nonneg s). unfold string_layout, str_bytes.
  destruct (Z.ltb_spec (zlen s) 255).
  - reflexivity.
  - exists (be 4 (zlen s)). split; [apply be_big_endian|]. reflexivity.
Qed.

(** ** Values *)
Lemma has_type_wt t v : has_type t v -> wt t v.
Proof.
  revert v. induction t as [p| |t IH|n t IH]; intros v H; inversion H; subst; cbn [wt].
  - now apply scalar_prim_ok.
  - now apply text_str_ok.
  - split; [assumption|]. eapply Forall_impl; [|eassumption]. exact IH.
  - split; [reflexivity|]. eapply Forall_impl; [|eassumption]. exact IH.
Qed.

Lemma wt_has_type t v : wt t v -> has_type t v.
Proof.
  revert v. induction t as [p| |t IH|n t IH]; intros [z|s|l] H; cbn [wt] in H; try contradiction.
  - constructor. now apply scalar_prim_ok.
  - constructor. now apply text_str_ok.
  - destruct H as [H1 H2]. constructor; [exact H1|]. eapply Forall_impl; [|exact H2]. exact IH.
  - destruct H as [H1 H2]. constructor; [exact H1|]. eapply Forall_impl; [|exact H2]. exact IH.
Qed.

(** ** Lists of records *)
Lemma rt_iter {T} (wf : T -> W unit) (rf : R T) (sz : T -> Z) l :
  (forall t, In t l -> rt (sz t) (wf t) rf t) ->
  rt (fold_right Z.add 0 (map sz l)) (iterM wf l) (repeatM (length l) rf) l.
Proof.
  induction l as [|t l IH]; intros H; cbn [map fold_right iterM repeatM length].
  - apply rt_ret.
  - eapply rt_seq; [apply H; now left| |reflexivity]. cbv beta.
    apply (rt_end _ _ _ (fun x => t :: x)). apply IH. intros; apply H; now right.
Qed.

(** ** Lists of polymorphic objects *)
Lemma nodup_app_l {A} (a b : list A) : NoDup (a ++ b) -> NoDup a.
Proof. induction a; cbn; intros H; constructor; inversion H; subst; auto. intros Hin. apply H2, in_app_iff; now left. Qed.

Definition write_item {O} (i : item O) : W unit :=
  write_object_any (i_class i) (i_id i) (i_body i) ;;; ret tt.

Fixpoint new_ids {O} (met : list Z) (l : list (item O)) : list Z :=
  match l with
  | [] => []
  | i :: r => if existsb (Z.eqb (i_id i)) met then new_ids met r
              else i_id i :: new_ids (i_id i :: met) r
  end.

Lemma existsb_In a l : existsb (Z.eqb a) l = true <-> In a l.
Proof.
  rewrite existsb_exists. split.
  - intros (x & H & E). apply Z.eqb_eq in E. now subst.
  - intros H. exists a. split; [exact H|apply Z.eqb_refl].
Qed.

Lemma existsb_same {A} (f : A -> bool) l m : (forall x, In x l <-> In x m) -> existsb f l = existsb f m.
Proof.
  intros H. apply eq_true_iff_eq. rewrite !existsb_exists. split; intros (x & Hx & E); exists x; split; auto; now apply H.
Qed.

Lemma firsts_same {O} (l : list (item O)) : forall m m', (forall x, In x m <-> In x m') -> firsts m l = firsts m' l.
Proof.
  induction l as [|i l IH]; intros m m' H; cbn [firsts]; [reflexivity|].
  rewrite (existsb_same _ m m' H). f_equal. apply IH. intros x; cbn; rewrite H; tauto.
Qed.

Lemma new_ids_not {O} (l : list (item O)) : forall met a, In a (new_ids met l) -> ~ In a met.
Proof.
  induction l as [|i l IH]; intros met a H; cbn [new_ids] in H; [destruct H|].
  destruct (existsb (Z.eqb (i_id i)) met) eqn:E; [now apply IH|].
  destruct H as [<-|H].
  - intros Hin. apply existsb_In in Hin. congruence.
  - apply IH in H. intros Hin; apply H; now right.
Qed.

Lemma nonul_forallb c : ~ In 0 c -> forallb (fun b => negb (b =? 0)) c = true.
Proof.
  intros H. apply forallb_forall. intros x Hx. destruct (Z.eqb_spec x 0); [subst; contradiction|reflexivity].
Qed.

Lemma class_name_ok c : class_name c -> cname_ok c.
Proof. intros (H1 & H2 & H3). split; [now apply nonul_forallb|]. split; [now apply utf8_iff|exact H3]. Qed.

Definition item_ok {O} (known : bytes -> bool) (um : bytes -> R O) (i : item O) : Prop :=
  class_name (i_class i) /\ known (i_class i) = true /\
  exists w, writes (i_body i) w /\ reads (um (i_class i)) w (i_value i).

Lemma items_sim {O} (known : bytes -> bool) (um : bytes -> R O) l : forall met,
  Forall (item_ok known um) l ->
  sim met (new_ids met l) (iterM write_item l) (repeatM (length l) (read_object_any known um)) (firsts met l).
Proof.
  induction l as [|i l IH]; intros met H; cbn [new_ids iterM repeatM length firsts].
  - intros s. intros P Ho HA HB.
    destruct (sim_ret nonempty tt (@nil (option O)) s P Ho ltac:(intros ? []) ltac:(intros ? []))
      as (x & s' & w & E & R). exists x, s', w. split; [exact E|exact R].
  - inversion H as [|? ? (Hc & Hk & w & Hw & Hr) H']; subst.
    destruct (existsb (Z.eqb (i_id i)) met) eqn:E.
    + assert (Hin : In (i_id i) met) by now apply existsb_In.
      eapply sim_bind with (B1 := [i_id i]) (A1 := []) (B2 := met) (A2 := new_ids met l).
      * apply sim_unit_end. apply sim_object_ref.
      * intros _. apply (sim_end _ _ _ _ (fun xs => None :: xs)).
        rewrite (firsts_same l (i_id i :: met) met).
        -- now apply IH.
        -- intros x; cbn. split; [intros [<-|?]; auto|auto].
      * intros a [<-|[]]. exact Hin.
      * apply incl_appl, incl_refl.
      * intros a; cbn; tauto.
      * intros a [].
      * intros b _ [].
    + assert (Hin : ~ In (i_id i) met) by (intros Hin; apply existsb_In in Hin; congruence).
      eapply sim_bind with (B1 := met) (A1 := [i_id i]) (B2 := i_id i :: met) (A2 := new_ids (i_id i :: met) l).
      * apply sim_unit_end. apply sim_object_any; auto.
        -- now apply class_name_ok.
        -- intros s P Ho HA HB.
           destruct (sim_pure nonempty _ _ _ _ Hw Hr s P Ho ltac:(intros ? []) ltac:(intros ? []))
             as (x & s' & w' & E' & R). exists x, s', w'. split; [exact E'|exact R].
      * intros _. apply (sim_end _ _ _ _ (fun xs => Some (i_value i) :: xs)). now apply IH.
      * apply incl_refl.
      * intros a [<-|Ha]; apply in_app_iff; [right; now left|now left].
      * intros a; cbn; tauto.
      * intros a [<-|[]] Ha. apply new_ids_not in Ha. apply Ha; now left.
      * intros b Hb [<-|[]]. contradiction.
Qed.

(** ** Version gates *)
Lemma flag_set n : 1073741824 <= n < 2147483648 -> (Z.land n kByteCountMask =? 0) = false.
Proof.
  intros H. change kByteCountMask with (2 ^ 30).
  destruct (Z.eqb_spec (Z.land n (2 ^ 30)) 0) as [Hz|]; [|reflexivity].
  exfalso. assert (T : Z.testbit (Z.land n (2 ^ 30)) 30 = false) by (rewrite Hz; apply Z.testbit_0_l).
  rewrite Z.land_spec, Z.pow2_bits_true, andb_true_r in T by lia.
  rewrite Z.testbit_false in T by lia. change (2 ^ 30) with 1073741824 in T. lia.
Qed.

Lemma reads_header_version n v sk : 1073741824 <= n < 2147483648 -> 0 <= v < 32768 ->
  reads_sk sk (h <- read_header ;; ret (h_vers h)) (be 4 n ++ be 2 v) v.
Proof.
  intros Hn Hv pre post o r.
  assert (R1 := reads_uint 4 n sk ltac:(red; change (256 ^ Z.of_nat 4) with 4294967296; lia) pre (be 2 v ++ post) o r).
  assert (R2 := reads_uint 2 v sk ltac:(red; change (256 ^ Z.of_nat 2) with 65536; lia) (pre ++ be 4 n) post o r).
  rewrite zlen_app in R2. rewrite <- app_assoc in R2. rewrite <- (app_assoc (be 4 n)).
  rewrite zlen_app.
  unfold read_header, gets, bind at 1, bind at 1.
  rewrite (bind_Ok _ _ _ _ _ R1). rewrite (flag_set n Hn). cbn [negb].
  rewrite (bind_Ok _ _ _ _ _ R2). unfold ret. cbn [h_vers]. rewrite to_i16_id by (red; lia).
  apply Ok_eq; [reflexivity|]. f_equal. lia.
Qed.

Lemma announces_reads v w before after off rr sk :
  0 <= v < 32768 -> announces v w ->
  exists pos len,
    read_header (mkR (before ++ w ++ after) (zlen before) off rr sk)
    = Ok (mkH v pos len, mkR (before ++ w ++ after) (zlen before + zlen w) off rr sk).
Proof.
  intros Hv (cnt & c4 & v2 & Hc & H4 & H2 & ->). apply big_endian_be in H4, H2. subst c4 v2.
  change (2 ^ 30) with 1073741824 in *. remember (1073741824 + cnt) as n eqn:Hn.
  pose proof (reads_header_version n v sk ltac:(lia) Hv before after off rr) as E.
  unfold bind at 1 in E.
  destruct (read_header _) as [[h r]| | | |] eqn:Eh; try discriminate.
  unfold ret in E. injection E as E1 E2. destruct h as [hv hp hl]. cbn [h_vers] in E1. subst hv r. eauto.
Qed.

Definition refuses {V} (m : R V) (r : rbuf) : Prop := m r = Err EVersionTooHigh.

Lemma refuses_bind {V U} (m : R V) (k : V -> R U) r : refuses m r -> refuses (bind m k) r.
Proof. unfold refuses, bind. now intros ->. Qed.

Lemma refuses_gate {V} mx v w before after off rr sk (k : header -> R V) :
  0 <= v < 32768 -> announces v w -> mx < v ->
  refuses (h <- read_header ;; ensure_max (h_vers h) mx ;;; k h)
    (mkR (before ++ w ++ after) (zlen before) off rr sk).
Proof.
  intros Hv Ha Hm. destruct (announces_reads v w before after off rr sk Hv Ha) as (p & l & E).
  unfold refuses. rewrite (bind_Ok _ _ _ _ _ E). cbn [h_vers]. unfold ensure_max.
  replace (mx <? v) with true by (symmetry; lia). reflexivity.
Qed.

Lemma newest_refused n c mx v w before after off rr sk :
  In (c, mx) newest -> mx < v < 32768 -> announces v w ->
  refuses (um (S n) c) (mkR (before ++ w ++ after) (zlen before) off rr sk).
Proof.
  intros Hin Hv Ha.
  assert (H0 : 0 <= mx).
  { cbn in Hin. repeat (destruct Hin as [Hin|Hin]; [injection Hin as _ <-; lia|]). destruct Hin. }
  assert (Hg : forall V (k : header -> R V), refuses (h <- read_header ;; ensure_max (h_vers h) mx ;;; k h)
    (mkR (before ++ w ++ after) (zlen before) off rr sk)) by (intros; apply refuses_gate with (v := v); auto; lia).
  unfold newest in Hin.
  repeat (destruct Hin as [Hin|Hin]; [injection Hin as <- <-;
    first [ apply Hg | apply refuses_bind; apply Hg | apply refuses_bind, refuses_bind; apply Hg
          | apply refuses_bind, refuses_bind, refuses_bind; apply Hg ]|]).
  destruct Hin.
Qed.

(** ** Unknown classes *)
Lemma known_existsb c : known c = existsb (beqb c) registered.
Proof.
  unfold known, dispatch, streamer_unmarshal, leaf_kinds, registered. cbn [find existsb leaf_class].
  repeat match goal with
  | |- context [if beqb c ?x then _ else _] => destruct (beqb c x); cbn [orb]; [reflexivity|]
  end.
  reflexivity.
Qed.

Lemma known_registered c : known c = true <-> In c registered.
Proof.
  rewrite known_existsb, existsb_exists. split.
  - intros (x & H & E). apply beqb_eq in E. now subst.
  - intros H. exists c. split; [exact H|apply beqb_refl].
Qed.

Lemma unknown_refused {O} (um' : bytes -> R O) (kn : bytes -> bool) c n before after off rr sk :
  1073741824 <= n < 2147483648 -> cname_ok c -> kn c = false ->
  read_object_any kn um'
    (mkR (before ++ (be 4 n ++ be 4 4294967295 ++ c ++ [0]) ++ after) (zlen before) off rr sk)
  = Err EClassNotRegistered.
Proof.
  intros Hn Hc Hk.
  set (w := be 4 n ++ be 4 4294967295 ++ c ++ [0]).
  assert (R1 := reads_uint 4 n sk ltac:(red; change (256 ^ Z.of_nat 4) with 4294967296; lia)
                  before (be 4 4294967295 ++ (c ++ [0]) ++ after) off rr).
  assert (R2 := reads_uint 4 4294967295 sk ltac:(red; change (256 ^ Z.of_nat 4) with 4294967296; lia)
                  (before ++ be 4 n) ((c ++ [0]) ++ after) off rr).
  assert (R3 := reads_cstring c sk Hc ((before ++ be 4 n) ++ be 4 4294967295) after off rr).
  rewrite <- !app_assoc in R1. rewrite <- !app_assoc in R2. rewrite <- !app_assoc in R3.
  rewrite !zlen_app in R2. rewrite !zlen_app in R3. unfold w. rewrite <- !app_assoc.
  unfold read_object_any. unfold read_u32.
  rewrite (bind_Ok _ _ _ _ _ R1). rewrite (flag_set n Hn). 
  assert (Hne : (n =? kNewClassTag) = false) by (unfold kNewClassTag; lia). rewrite Hne. cbn [orb].
  unfold gets. unfold bind at 1. unfold bind at 1.
  rewrite (bind_Ok _ _ _ _ _ R2). unfold ret at 1.
  change (Z.land 4294967295 kClassMask =? 0) with false. cbv iota.
  change (4294967295 =? kNewClassTag) with true. cbv iota.
  rewrite !Z.add_assoc in R3.
  rewrite (bind_Ok _ _ _ _ _ R3). rewrite Hk. reflexivity.
Qed.

(** A name of any length, valid or not: the reader keeps it, or its first 80 bytes, or nothing. *)
Lemma until0_prefix c n : ~ In 0 c -> until0 (firstn n c) = firstn n c.
Proof.
  revert n. induction c as [|x c IH]; intros [|n] H; cbn; auto.
  destruct (x =? 0) eqn:E; [|now rewrite IH by (intros Hi; apply H; now right)].
  exfalso. apply H. left. lia.
Qed.
Lemma cstring_any c pre post off rr sk : ~ In 0 c ->
  exists c' r', read_cstring 80 (mkR (pre ++ (c ++ [0]) ++ post) (zlen pre) off rr sk) = Ok (c', r') /\
    (c' = c \/ zlen c' = 80 \/ c' = []).
Proof.
  intros Hn. unfold read_cstring, extract_until, bind. cbn [rp rc].
  rewrite !zlen_app. change (zlen [0]) with 1.
  pose proof (zlen_nonneg pre). pose proof (zlen_nonneg c). pose proof (zlen_nonneg post).
  set (m := Z.min _ _).
  replace (_ && _) with true by (symmetry; unfold m; lia).
  set (p := until0 _).
  assert (Hp : p = c \/ zlen p = 80).
  { unfold p, zsub. replace (Z.to_nat (zlen pre)) with (length pre) by (rewrite zlen_def; lia).
    rewrite skipn_app, skipn_all, Nat.sub_diag. cbn [app skipn]. rewrite <- app_assoc.
    destruct (Z.le_gt_cases (zlen c) 80) as [L|L].
    - left. rewrite firstn_app_le by (unfold m; rewrite !zlen_def in *; lia).
      rewrite until0_nonul by (apply forallb_forall; intros x Hx; destruct (x =? 0) eqn:E; [|reflexivity];
        exfalso; apply Hn; replace 0 with x by lia; exact Hx).
      cbn [app].
      destruct (Z.to_nat (m - zlen pre) - length c)%nat; cbn; now rewrite app_nil_r.
    - right. replace (Z.to_nat (m - zlen pre)) with 80%nat by (unfold m; lia).
      rewrite firstn_app. replace (80 - length c)%nat with 0%nat by (rewrite zlen_def in L; lia).
      rewrite firstn_O, app_nil_r, until0_prefix by exact Hn.
      rewrite zlen_def, firstn_length. rewrite zlen_def in L. lia. }
  unfold ret. eexists _, _. split; [reflexivity|].
  destruct (utf8_valid p); [|tauto]. destruct Hp; tauto.
Qed.
Lemma unknown_refused_any {O} (um' : bytes -> R O) (kn : bytes -> bool) c before after off rr sk n :
  1073741824 <= n < 2147483648 -> ~ In 0 c -> kn c = false -> kn [] = false ->
  (forall c', zlen c' = 80 -> kn c' = false) ->
  read_object_any kn um'
    (mkR (before ++ (be 4 n ++ be 4 4294967295 ++ c ++ [0]) ++ after) (zlen before) off rr sk)
  = Err EClassNotRegistered.
Proof.
  intros Hn Hc Hk Hk0 Hk80.
  assert (R1 := reads_uint 4 n sk ltac:(red; change (256 ^ Z.of_nat 4) with 4294967296; lia)
                  before (be 4 4294967295 ++ (c ++ [0]) ++ after) off rr).
  assert (R2 := reads_uint 4 4294967295 sk ltac:(red; change (256 ^ Z.of_nat 4) with 4294967296; lia)
                  (before ++ be 4 n) ((c ++ [0]) ++ after) off rr).
  destruct (cstring_any c ((before ++ be 4 n) ++ be 4 4294967295) after off rr sk Hc) as (c' & r' & R3 & Hc').
  rewrite <- !app_assoc in R1. rewrite <- !app_assoc in R2. rewrite <- !app_assoc in R3.
  rewrite !zlen_app in R2. rewrite !zlen_app in R3. rewrite <- !app_assoc.
  unfold read_object_any. unfold read_u32.
  rewrite (bind_Ok _ _ _ _ _ R1). rewrite (flag_set n Hn).
  assert (Hne : (n =? kNewClassTag) = false) by (unfold kNewClassTag; lia). rewrite Hne. cbn [orb].
  unfold gets. unfold bind at 1. unfold bind at 1.
  rewrite (bind_Ok _ _ _ _ _ R2). unfold ret at 1.
  change (Z.land 4294967295 kClassMask =? 0) with false. cbv iota.
  change (4294967295 =? kNewClassTag) with true. cbv iota.
  rewrite !Z.add_assoc in R3.
  rewrite (bind_Ok _ _ _ _ _ R3).
  assert (Hk' : kn c' = false) by (destruct Hc' as [->|[E| ->]]; auto).
  rewrite Hk'. reflexivity.
Qed.

(** ** Reads stay inside the buffer *)
Lemma extract_inv n r w r' : extract n r = Ok (w, r') ->
  0 <= rc r /\ 0 <= n /\ rc r + n <= zlen (rp r) /\ w = zsub (rp r) (rc r) n /\ r' = r_set_c r (rc r + n).
Proof.
  unfold extract. destruct ((0 <=? rc r) && (0 <=? n) && (rc r + n <=? zlen (rp r))) eqn:E; [|discriminate].
  intros H. injection H as <- <-. repeat split; lia.
Qed.

Lemma extract_takes n r w r' : extract n r = Ok (w, r') ->
  takes r r' w /\ zlen w = n /\ rskip r' = rskip r.
Proof.
  intros H. apply extract_inv in H as (H1 & H2 & H3 & -> & ->).
  destruct (zsub_split (rp r) (rc r) n) as (a & b & E & La); try lia.
  pose proof (zsub_length (rp r) (rc r) n H1 H2 H3) as Lb.
  split; [|split; [exact Lb|reflexivity]]. exists a, b. cbn [rp rc roff rrefs r_set_c]. rewrite Lb.
  repeat split; auto; congruence.
Qed.

Lemma takes_nil r : 0 <= rc r <= zlen (rp r) -> takes r r [].
Proof.
  intros H. destruct (zsub_split (rp r) (rc r) 0) as (a & b & E & La); try lia.
  pose proof (zsub_length (rp r) (rc r) 0 ltac:(lia) ltac:(lia) ltac:(lia)) as Lb.
  apply zlen_0_nil in Lb. rewrite Lb in E. exists a, b. rewrite (@zlen_nil Z). repeat split; auto; lia.
Qed.

Lemma takes_trans r r1 r2 w1 w2 : takes r r1 w1 -> takes r1 r2 w2 -> takes r r2 (w1 ++ w2).
Proof.
  intros (a & b & E & La & P1 & C1 & O1 & R1) (a' & b' & E' & La' & P2 & C2 & O2 & R2).
  assert (a' = a ++ w1 /\ b = w2 ++ b') as (-> & ->).
  { rewrite P1, E in E'. rewrite C1, La in La'.
    rewrite app_assoc in E'.
    assert (L : length (a ++ w1) = length a').
    { rewrite app_length. rewrite !zlen_def in La'. lia. }
    clear - E' L. revert E' L. generalize (a ++ w1). intros x. revert a'.
    induction x as [|c x IH]; intros [|d a'] E L; cbn in L; try discriminate.
    - cbn in E. now subst.
    - cbn in E. injection E as -> E. injection L as L. destruct (IH a' E L) as [-> ->]. auto. }
  exists a, b'. rewrite <- app_assoc. rewrite zlen_app. repeat split; auto; try congruence; lia.
Qed.

Lemma takes_inside r r' w : takes r r' w -> 0 <= rc r /\ rc r' <= zlen (rp r).
Proof.
  intros (a & b & E & La & P1 & C1 & _). rewrite C1, E, !zlen_app, La.
  pose proof (zlen_nonneg a). pose proof (zlen_nonneg b). lia.
Qed.

Lemma read_uint_takes n r z r' : read_uint n r = Ok (z, r') ->
  exists w, takes r r' w /\ length w = n /\ z = de w /\ rskip r' = rskip r.
Proof.
  unfold read_uint. intros H. apply bind_inv in H as (w & r1 & H1 & H2).
  unfold ret in H2. injection H2 as <- <-. apply extract_takes in H1 as (T & L & K).
  exists w. repeat split; auto. rewrite zlen_def in L. lia.
Qed.

Lemma read_sint_takes n r z r' : read_sint n r = Ok (z, r') ->
  exists w, takes r r' w /\ length w = n /\ z = sgn n (de w) /\ rskip r' = rskip r.
Proof.
  unfold read_sint. intros H. apply bind_inv in H as (w & r1 & H1 & H2).
  unfold ret in H2. injection H2 as <- <-. apply extract_takes in H1 as (T & L & K).
  exists w. repeat split; auto. rewrite zlen_def in L. lia.
Qed.

Lemma takes_bytes r r' w : takes r r' w -> bytes_ok (rp r) -> bytes_ok w.
Proof.
  intros (a & b & E & _) H. rewrite E in H. unfold bytes_ok in *. apply Forall_app in H as [_ H]. apply Forall_app in H as [H _]. exact H.
Qed.

Lemma de_inj_be w : bytes_ok w -> w = be (length w) (de w).
Proof. intros H. symmetry. now apply be_de. Qed.

Lemma big_endian_de n w z : bytes_ok w -> length w = n -> z mod 256 ^ Z.of_nat n = de w -> big_endian n z w.
Proof.
  intros Hb L E. rewrite (de_inj_be w Hb), L, <- E. rewrite be_mod. apply be_big_endian.
Qed.

Lemma sgn_mod n z : (0 < n)%nat -> 0 <= z < 256 ^ Z.of_nat n -> sgn n z mod 256 ^ Z.of_nat n = z.
Proof.
  intros Hn H. unfold sgn. destruct (z <? _); [now apply Z.mod_small|].
  replace (z - 256 ^ Z.of_nat n) with (z + (-1) * 256 ^ Z.of_nat n) by lia.
  rewrite Z.mod_add by lia. now apply Z.mod_small.
Qed.

Lemma sgn_range n z : (0 < n)%nat -> 0 <= z < 256 ^ Z.of_nat n -> in_s n (sgn n z).
Proof.
  intros Hn H. pose proof (pow256_half n Hn). unfold sgn, in_s.
  destruct (Z.ltb_spec z (256 ^ Z.of_nat n / 2)); lia.
Qed.

Lemma read_prim_takes p r z r' : read_prim p r = Ok (z, r') ->
  exists w, takes r r' w /\ length w = scalar_bytes p /\ rskip r' = rskip r /\
    (bytes_ok (rp r) -> scalar p z /\
       match p with PBool => z = 0 <-> w = [0] | _ => big_endian (scalar_bytes p) z w end).
Proof.
  assert (HU : forall n, read_uint n r = Ok (z, r') ->
    exists w, takes r r' w /\ length w = n /\ rskip r' = rskip r /\
      (bytes_ok (rp r) -> in_u n z /\ big_endian n z w)).
  { intros n H. apply read_uint_takes in H as (w & T & L & -> & K). exists w. repeat split; auto.
    - apply de_bound. eapply takes_bytes; eauto.
    - pose proof (de_bound w (takes_bytes _ _ _ T H)). rewrite zlen_def, L in H0. lia.
    - pose proof (takes_bytes _ _ _ T H) as Hb. pose proof (de_bound w Hb) as D. rewrite zlen_def, L in D.
      apply (big_endian_de n w (de w) Hb L). now apply Z.mod_small. }
  assert (HS : forall n, (0 < n)%nat -> read_sint n r = Ok (z, r') ->
    exists w, takes r r' w /\ length w = n /\ rskip r' = rskip r /\
      (bytes_ok (rp r) -> in_s n z /\ big_endian n z w)).
  { intros n Hn H. apply read_sint_takes in H as (w & T & L & -> & K). exists w.
    split; [exact T|]. split; [exact L|]. split; [exact K|]. intros Hb.
    pose proof (takes_bytes _ _ _ T Hb) as Hw. pose proof (de_bound w Hw) as D. rewrite zlen_def, L in D.
    split; [now apply sgn_range|]. apply big_endian_de; auto. now apply sgn_mod. }
  destruct p; cbn [read_prim scalar_bytes]; intros H;
  try (match type of H with
       | read_u8 _ = _ => apply (HU 1%nat) in H | read_u16 _ = _ => apply (HU 2%nat) in H
       | read_u32 _ = _ => apply (HU 4%nat) in H | read_u64 _ = _ => apply (HU 8%nat) in H
       | read_f32 _ = _ => apply (HU 4%nat) in H | read_f64 _ = _ => apply (HU 8%nat) in H
       | read_i8 _ = _ => apply (HS 1%nat) in H; [|lia] | read_i16 _ = _ => apply (HS 2%nat) in H; [|lia]
       | read_i32 _ = _ => apply (HS 4%nat) in H; [|lia] | read_i64 _ = _ => apply (HS 8%nat) in H; [|lia]
       end;
       destruct H as (w & T & L & K & B); exists w; split; [exact T|]; split; [exact L|]; split; [exact K|];
       intros Hb; destruct (B Hb) as [B1 B2]; split; [|exact B2];
       unfold scalar, in_u, in_s in *; cbn [scalar_range fst snd];
       cbn in B1; lia).
  apply bind_inv in H as (b & r1 & H1 & H2). unfold ret in H2. injection H2 as <- <-.
  unfold read_bool in H1. apply bind_inv in H1 as (x & r2 & H1 & H2). unfold ret in H2. injection H2 as <- <-.
  apply read_sint_takes in H1 as (w & T & L & -> & K). exists w.
  split; [exact T|]. split; [exact L|]. split; [exact K|]. intros Hb.
  pose proof (takes_bytes _ _ _ T Hb) as Hw.
  destruct w as [|x [|y w]]; try discriminate L. inversion Hw as [|? ? Hx _]; subst. red in Hx.
  assert (E : sgn 1 (de [x]) = 0 <-> x = 0).
  { unfold de, sgn. cbn [fold_left]. change (256 ^ Z.of_nat 1) with 256. change (256 / 2) with 128.
    destruct (Z.ltb_spec (0 * 256 + x) 128); lia. }
  destruct (Z.eqb_spec (sgn 1 (de [x])) 0) as [E0|E0]; cbn [negb]; (split; [red; cbn; lia|]).
  - split; [|reflexivity]. intros _. apply E in E0. now subst.
  - split; [discriminate|]. intros Hx0. injection Hx0 as ->. exfalso. apply E0, E. reflexivity.
Qed.

Lemma read_string_takes r s r' : bytes_ok (rp r) -> read_string r = Ok (s, r') ->
  exists w l, takes r r' w /\ rskip r' = rskip r /\
    (w = zlen l :: l \/ exists n4, big_endian 4 (zlen l) n4 /\ w = 255 :: n4 ++ l) /\
    (utf8 l /\ s = l \/ ~ utf8 l /\ s = []).
Proof.
  intros Hb H. unfold read_string in H. apply bind_inv in H as (u & r1 & H1 & H).
  apply read_uint_takes in H1 as (w1 & T1 & L1 & -> & K1).
  pose proof (takes_bytes _ _ _ T1 Hb) as Hw1.
  destruct w1 as [|x [|? ?]]; try discriminate L1. inversion Hw1 as [|? ? Hx _]; subst. red in Hx.
  replace (de [x]) with x in H by (unfold de; cbn; lia).
  apply bind_inv in H as (n & r2 & H2 & H).
  assert (G : exists w2, takes r r2 w2 /\ rskip r2 = rskip r /\ 0 <= n /\
      forall l, zlen l = n -> (w2 ++ l = zlen l :: l \/ exists n4, big_endian 4 (zlen l) n4 /\ w2 ++ l = 255 :: n4 ++ l)).
  { destruct (Z.eqb_spec x 255) as [->|Hx'].
    - apply read_uint_takes in H2 as (w2 & T2 & L2 & -> & K2).
      assert (Hb1 : bytes_ok (rp r1)) by (destruct T1 as (? & ? & _ & _ & -> & _); exact Hb).
      pose proof (takes_bytes _ _ _ T2 Hb1) as Hw2. pose proof (de_bound w2 Hw2) as D.
      exists ([255] ++ w2). split; [eapply takes_trans; eauto|]. split; [congruence|]. split; [lia|].
      intros l Hl. right. exists w2. split; [|reflexivity].
      rewrite Hl, (de_inj_be w2 Hw2), L2, de_be. rewrite zlen_def, L2 in D.
      rewrite Z.mod_small by exact D. apply be_big_endian.
    - unfold ret in H2. injection H2 as <- <-. exists [x]. repeat split; auto; [lia|].
      intros l <-. now left. }
  destruct G as (w2 & T2 & K2 & Hn & HL).
  destruct (Z.eqb_spec n 0) as [->|Hn0].
  - unfold ret in H. injection H as <- <-. exists w2, []. split; [exact T2|]. split; [exact K2|].
    split; [rewrite <- (app_nil_r w2); apply HL; reflexivity|]. left. split; [now apply utf8_iff|reflexivity].
  - apply bind_inv in H as (l & r3 & H3 & H). apply extract_takes in H3 as (T3 & L3 & K3).
    unfold ret in H. injection H as <- <-. exists (w2 ++ l), l.
    split; [eapply takes_trans; eauto|]. split; [congruence|]. split; [now apply HL|].
    destruct (utf8_valid l) eqn:E; [left|right]; (split; [|reflexivity]).
    + now apply utf8_iff.
    + intros F. apply utf8_iff in F. congruence.
Qed.

Lemma rsame r r' w : takes r r' w -> rp r' = rp r.
Proof. intros (? & ? & _ & _ & E & _). exact E. Qed.

Lemma repeat_takes {V} (m : R V) n : forall r l r',
  (forall r0 x r1, rp r0 = rp r -> rskip r0 = None -> 0 <= rc r0 <= zlen (rp r0) -> m r0 = Ok (x, r1) -> exists w, takes r0 r1 w /\ rskip r1 = None) ->
  rskip r = None -> 0 <= rc r <= zlen (rp r) ->
  repeatM n m r = Ok (l, r') -> exists w, takes r r' w /\ rskip r' = None.
Proof.
  induction n as [|n IH]; intros r l r' Hm Hs Hc H; cbn [repeatM] in H.
  - unfold ret in H. injection H as <- <-. exists []. split; [now apply takes_nil|exact Hs].
  - apply bind_inv in H as (x & r1 & H1 & H). apply bind_inv in H as (xs & r2 & H2 & H).
    unfold ret in H. injection H as <- <-.
    destruct (Hm r x r1 eq_refl Hs Hc H1) as (w1 & T1 & K1). pose proof (takes_inside _ _ _ T1) as [I1 I2].
    pose proof (rsame _ _ _ T1) as P1.
    destruct (IH r1 xs r2) as (w2 & T2 & K2); auto.
    + intros r0 y r3 E. apply Hm. congruence.
    + destruct T1 as (? & ? & _ & _ & _ & C & _). pose proof (zlen_nonneg w1). rewrite P1. lia.
    + exists (w1 ++ w2). split; [eapply takes_trans; eauto|exact K2].
Qed.

Lemma unmarshal_takes t : forall r v r',
  bytes_ok (rp r) -> rskip r = None -> 0 <= rc r <= zlen (rp r) ->
  unmarshal t r = Ok (v, r') -> exists w, takes r r' w /\ rskip r' = None.
Proof.
  induction t as [p| |t IH|n t IH]; intros r v r' Hb Hs Hc H; cbn [unmarshal] in H.
  - apply bind_inv in H as (z & r1 & H1 & H). unfold ret in H. injection H as <- <-.
    apply read_prim_takes in H1 as (w & T & _ & K & _). exists w. split; [exact T|congruence].
  - unfold bind at 1, do_skip_header in H. rewrite Hs in H.
    apply bind_inv in H as (z & r1 & H1 & H). unfold ret in H. injection H as <- <-.
    apply read_string_takes in H1 as (w & l & T & K & _); auto. exists w. split; [exact T|congruence].
  - unfold bind at 1, do_skip_header in H. rewrite Hs in H.
    apply bind_inv in H as (z & r1 & H1 & H). apply read_sint_takes in H1 as (w & T & _ & _ & K).
    destruct (z <? 0); [discriminate|].
    unfold set_skip_header, modify in H. unfold bind at 1 in H.
    apply bind_inv in H as (l & r2 & H1 & H). unfold ret in H. injection H as <- <-.
    pose proof (rsame _ _ _ T) as P. pose proof (takes_inside _ _ _ T) as [I1 I2].
    assert (T' : takes r (r_set_skip r1 None) w) by exact T.
    assert (C' : 0 <= rc r1) by (destruct T as (? & ? & _ & _ & _ & C & _); pose proof (zlen_nonneg w); lia).
    apply (repeat_takes (unmarshal t)) in H1 as (w2 & T2 & K2).
    + exists (w ++ w2). split; [eapply takes_trans; eauto|exact K2].
    + intros r0 x r3 E0 S0 C0 M0. cbn [rp r_set_skip] in E0.
      apply (IH r0 x r3); auto. rewrite E0, P; exact Hb.
    + reflexivity.
    + cbn [rc rp r_set_skip]. rewrite P. lia.
  - apply bind_inv in H as (l & r2 & H1 & H). unfold ret in H. injection H as <- <-.
    apply (repeat_takes (unmarshal t)) in H1 as (w2 & T2 & K2); auto.
    + exists w2. auto.
    + intros r0 x r3 E0 S0 C0 M0. apply (IH r0 x r3); auto. rewrite E0; exact Hb.
Qed.

(** ** The list of free segments, read until the buffer is empty *)
Lemma segs_back l : (forall s, In s l -> rt (seg_size s) (seg_marshal s) seg_unmarshal s) ->
  exists w, zlen w = fold_right Z.add 0 (map seg_size l) /\ writes (iterM seg_marshal l) w /\
    reads (repeatM (length l) seg_unmarshal) w l /\
    forall pre off rr sk fuel, (length w < fuel)%nat ->
      read_spans fuel (mkR (pre ++ w) (zlen pre) off rr sk)
      = Ok (l, mkR (pre ++ w) (zlen pre + zlen w) off rr sk).
Proof.
  induction l as [|s l IH]; intros H.
  - exists []. split; [reflexivity|]. split; [intros s; exists tt; unfold iterM, ret, w_app, w_set_p; rewrite app_nil_r; destruct s; reflexivity|].
    split; [intros sk; apply reads_ret|].
    intros pre off rr sk [|fuel] Hf; [cbn in Hf; lia|]. cbn [read_spans]. unfold gets, bind at 1.
    unfold r_is_empty, r_len. cbn [rp rc]. rewrite app_nil_r, Z.sub_diag. cbn [Z.leb Z.compare].
    unfold ret. rewrite (@zlen_nil Z), Z.add_0_r. reflexivity.
  - destruct (IH ltac:(intros; apply H; now right)) as (w & L & Hw & Hr & Hs).
    destruct (H s ltac:(now left)) as (w1 & L1 & Hw1 & Hr1).
    assert (Hp : 0 < zlen w1) by (rewrite L1; unfold seg_size; destruct (_ <? _); lia).
    exists (w1 ++ w). cbn [map fold_right iterM repeatM length].
    split; [rewrite zlen_app; lia|]. split; [apply writes_bind; [exact Hw1|intros _; exact Hw]|].
    split.
    { intros sk. eapply reads_bind; [apply Hr1|]. rewrite <- (app_nil_r w).
      eapply reads_bind; [apply Hr|apply reads_ret]. }
    intros pre off rr sk [|fuel] Hf; [cbn in Hf; lia|]. cbn [read_spans]. unfold gets, bind at 1.
    unfold r_is_empty, r_len. cbn [rp rc]. rewrite !zlen_app. pose proof (zlen_nonneg w).
    replace (zlen pre + (zlen w1 + zlen w) - zlen pre <=? 0) with false by (symmetry; lia).
    rewrite (bind_Ok _ _ _ _ _ (Hr1 sk pre w off rr)).
    rewrite app_length in Hf. rewrite zlen_def in Hp.
    assert (E := Hs (pre ++ w1) off rr sk fuel ltac:(lia)).
    rewrite <- app_assoc, zlen_app in E. rewrite (bind_Ok _ _ _ _ _ E). unfold ret.
    apply Ok_eq; [reflexivity|]. f_equal. lia.
Qed.
