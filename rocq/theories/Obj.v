(** Base records of ROOT objects: rbase/*.rs, rtree/tree/tio_features.rs. *)
From Verif Require Export ObjAny Header.

(** ** Proof steps for records that use the object tables *)

Lemma sim_seq0 {X Y V U} B A (wm : W X) (wk : W Y) (rm : R V) (rk : V -> R U) v u :
  sim [] [] wm rm v -> sim B A wk (rk v) u -> sim B A (wm ;;; wk) (bind rm rk) u.
Proof.
  intros H1 H2. eapply sim_bind with (B1 := []) (A1 := []) (B2 := B) (A2 := A).
  - exact H1.
  - intros _; exact H2.
  - intros a [].
  - rewrite app_nil_r. apply incl_refl.
  - intros a; cbn; tauto.
  - intros a [].
  - auto.
Qed.

Lemma sim_lm1 {X V} B A (wm : W X) (rm : R V) v :
  sim B A wm rm v -> sim B A (len_minus_1 ;;; wm) rm v.
Proof.
  intros H s Hne Ho HA HB. destruct (H s Hne Ho HA HB) as (x & s' & w & H1 & H2).
  exists x, s', w. split; [|exact H2]. now rewrite (bind_Ok _ _ _ _ _ (len_minus_1_ok s Hne)).
Qed.

(** A reader step that consumes nothing. *)
Lemma sim_gate {X V U} P B A (wm : W X) (m : R U) (k : U -> R V) u v :
  m = ret u -> simg P B A wm (k u) v -> simg P B A wm (bind m k) v.
Proof. intros -> H. eapply sim_rext; [exact H|]. intros r; reflexivity. Qed.

Lemma sim_end {X V U} B A (wm : W X) (rm : R V) (f : V -> U) v :
  sim B A wm rm v -> sim B A wm (x <- rm ;; ret (f x)) (f v).
Proof.
  intros H s Hne Ho HA HB. destruct (H s Hne Ho HA HB) as (x & s' & w & H1 & H2 & H3 & H4 & H5 & H6).
  exists x, s', w. repeat split; auto. intros Hlt pre post off rr sk Hp Hrr.
  destruct (H6 Hlt pre post off rr sk Hp Hrr) as (rr' & E & G). exists rr'. split; [|exact G].
  now rewrite (bind_Ok _ _ _ _ _ E).
Qed.

Lemma sim_last {X V U} P B A (wm : W X) (rm : R V) (rk : V -> R U) v u :
  simg P B A wm rm v -> rk v = ret u -> simg P B A wm (bind rm rk) u.
Proof.
  intros H E s Hne Ho HA HB. destruct (H s Hne Ho HA HB) as (x & s' & w & H1 & H2 & H3 & H4 & H5 & H6).
  exists x, s', w. repeat split; auto. intros Hlt pre post off rr sk Hp Hrr.
  destruct (H6 Hlt pre post off rr sk Hp Hrr) as (rr' & E' & G). exists rr'. split; [|exact G].
  rewrite (bind_Ok _ _ _ _ _ E'), E. reflexivity.
Qed.

Lemma sim_last' {X V U} P B A (wm : W X) (rm : R V) (rk : V -> R U) v u :
  simg P B A wm rm v -> (forall r, rk v r = Ok (u, r)) -> simg P B A wm (bind rm rk) u.
Proof.
  intros H E s Hne Ho HA HB. destruct (H s Hne Ho HA HB) as (x & s' & w & H1 & H2 & H3 & H4 & H5 & H6).
  exists x, s', w. repeat split; auto. intros Hlt pre post off rr sk Hp Hrr.
  destruct (H6 Hlt pre post off rr sk Hp Hrr) as (rr' & E' & G). exists rr'. split; [|exact G].
  rewrite (bind_Ok _ _ _ _ _ E'). apply E.
Qed.

(** Sequential step on a scalar or string. *)
Ltac sim_step := eapply sim_seq_rt; [ rt_atom | cbv beta ].
Ltac sim_sub := eapply sim_seq0; [ | cbv beta ].

Lemma sim_assoc {X Y T V} B A (a : W X) (b : W Y) (c : W T) (rm : R V) v :
  sim B A (a ;;; (b ;;; c)) rm v -> sim B A ((a ;;; b) ;;; c) rm v.
Proof. intros H. eapply sim_wext; [exact H|]. intros s. apply bind_assoc. Qed.

Lemma sim_rassoc {X V U T} B A (wm : W X) (a : R V) (b : V -> R U) (c : U -> R T) v :
  sim B A wm (x <- a ;; y <- b x ;; c y) v -> sim B A wm (y <- (x <- a ;; b x) ;; c y) v.
Proof. intros H. eapply sim_rext; [exact H|]. intros s. apply bind_assoc. Qed.

Lemma sim_unit_end {X V} B A (wm : W X) (rm : R V) v :
  sim B A wm rm v -> sim B A (wm ;;; ret tt) rm v.
Proof.
  intros H s Hne Ho HA HB. destruct (H s Hne Ho HA HB) as (x & s' & w & H1 & H2).
  exists tt, s', w. split; [|exact H2]. now rewrite (bind_Ok _ _ _ _ _ H1).
Qed.

Lemma rt_last {X V U} n (wm : W X) (rm : R V) (rk : V -> R U) v u :
  rt n wm rm v -> rt 0 (ret tt) (rk v) u -> rt n wm (bind rm rk) u.
Proof.
  intros (w & L & Hw & Hr) (w' & L' & _ & Hr'). exists w. repeat split; auto.
  assert (w' = []) as -> by (apply zlen_0_nil; lia).
  intros sk. rewrite <- (app_nil_r w). eapply reads_bind; [apply Hr|apply Hr'].
Qed.

(** ** TObject: rbase/object.rs *)
Record tobj := mkObj { o_id : Z; o_bits : Z }.

(** rbase/consts.rs 1 [K_IS_ON_HEAP] *)
Definition kIsOnHeap : Z := 16777216.
(** rbase/consts.rs 3 [K_IS_REFERENCED] *)
Definition kIsReferenced : Z := 16.

(** rbase/object.rs 25-32 *)
Definition obj_default : tobj := mkObj 0 50331648.

(** rbase/object.rs 50-68 *)
Definition obj_marshal (o : tobj) : W unit :=
  write_u16 1 ;;;
  if negb (Z.land (o_bits o) kIsReferenced =? 0) then
    write_u32 (Z.land (o_id o) 16777215) ;;; write_u32 (o_bits o) ;;; write_u16 0
  else write_u32 (o_id o) ;;; write_u32 (o_bits o).

(** rbase/object.rs 34-48 *)
Definition obj_unmarshal : R tobj :=
  skip_version ;;;
  id <- read_u32 ;;
  bits0 <- read_u32 ;;
  let bits := Z.lor bits0 kIsOnHeap in
  (if negb (Z.land bits kIsReferenced =? 0) then read_u16 ;;; ret tt else ret tt) ;;;
  ret (mkObj id bits).

(** What the format can represent. *)
Definition obj_ok (o : tobj) : Prop := is_u32 (o_id o) /\ is_u32 (o_bits o).

(** What the reader makes of it: the "on heap" bit is set, the id of a referenced
    object keeps its low 24 bits. *)
Definition obj_seen (o : tobj) : tobj :=
  mkObj (if negb (Z.land (o_bits o) kIsReferenced =? 0) then Z.land (o_id o) 16777215 else o_id o)
        (Z.lor (o_bits o) kIsOnHeap).

Definition obj_len (o : tobj) : Z := if negb (Z.land (o_bits o) kIsReferenced =? 0) then 12 else 10.

Lemma reads_skip_version sk : reads_sk sk skip_version (be 2 1) tt.
Proof.
  unfold skip_version. rewrite <- (app_nil_r (be 2 1)) at 1.
  eapply reads_bind; [apply (reads_sint 2 1); [lia|]|].
  - red. change (256 ^ Z.of_nat 2 / 2) with 32768. lia.
  - change (negb (Z.land 1 kByteCountMask =? 0)) with false. apply reads_ret.
Qed.

Lemma land_lor_heap b : Z.land (Z.lor b kIsOnHeap) kIsReferenced = Z.land b kIsReferenced.
Proof.
  rewrite Z.land_lor_distr_l. change (Z.land kIsOnHeap kIsReferenced) with 0. apply Z.lor_0_r.
Qed.

Lemma obj_rt o : obj_ok o -> rt (obj_len o) (obj_marshal o) obj_unmarshal (obj_seen o).
Proof.
  intros [Hi Hb]. destruct o as [i b]. unfold obj_marshal, obj_unmarshal, obj_seen, obj_len.
  cbn [o_id o_bits] in *.
  assert (Hl : is_u32 (Z.land i 16777215)).
  { red in Hi |- *. change 16777215 with (Z.ones 24). rewrite Z.land_ones by lia.
    pose proof (Z.mod_pos_bound i (2 ^ 24) ltac:(lia)). lia. }
  assert (V : rt 2 (write_u16 1) skip_version tt).
  { exists (be 2 1). split; [apply zlen_be|]. split; [apply writes_int|]. intros sk; apply reads_skip_version. }
  destruct (negb (Z.land b kIsReferenced =? 0)) eqn:E.
  - eapply rt_len with (n := 2 + (4 + (4 + 2))); [|reflexivity].
    eapply rt_seq; [exact V| |reflexivity]. cbv beta. rt_step. rt_step. cbv zeta.
    rewrite land_lor_heap, E.
    eapply rt_rext with (rm := x <- read_u16 ;; ret (mkObj (Z.land i 16777215) (Z.lor b kIsOnHeap))).
    + apply (rt_end 2 _ _ (fun _ => mkObj (Z.land i 16777215) (Z.lor b kIsOnHeap)) 0).
      apply rt_u16; rt_side.
    + intros r. unfold bind. destruct (read_u16 r) as [[? ?]| | | |]; reflexivity.
  - eapply rt_len with (n := 2 + (4 + 4)); [|reflexivity].
    eapply rt_seq; [exact V| |reflexivity]. cbv beta. rt_step.
    apply rt_last with (v := b); [now apply rt_u32|]. cbv zeta. rewrite land_lor_heap, E. apply rt_ret.
Qed.

(** ** TNamed: rbase/named.rs *)
Record named := mkNamed { n_obj : tobj; n_name : bytes; n_title : bytes }.

(** rbase/named.rs 37-47 with the derived [Default]; [new_named] stands for
    [Named::default().with_name(n).with_title(t)] *)
Definition new_named (n t : bytes) : named := mkNamed obj_default n t.

(** rbase/named.rs 70-88 *)
Definition named_marshal (n : named) : W Z :=
  len_minus_1 ;;;
  with_header 1 (obj_marshal (n_obj n) ;;; write_string (n_name n) ;;; write_string (n_title n)).

(** rbase/named.rs 49-68 *)
Definition named_unmarshal : R named :=
  h <- read_header ;;
  o <- obj_unmarshal ;;
  nm <- read_string ;;
  tt' <- read_string ;;
  ret (mkNamed o nm tt').

(** What the format can represent. *)
Definition named_ok (n : named) : Prop := obj_ok (n_obj n) /\ str_ok (n_name n) /\ str_ok (n_title n).
(** What the reader makes of it. *)
Definition named_seen (n : named) : named := mkNamed (obj_seen (n_obj n)) (n_name n) (n_title n).

Lemma named_sim n : named_ok n -> sim [] [] (named_marshal n) named_unmarshal (named_seen n).
Proof.
  destruct n as [o n t]. intros (Ho & Hn & Ht). cbn [n_obj n_name n_title] in *.
  unfold named_marshal, named_unmarshal, named_seen; cbn [n_obj n_name n_title].
  apply sim_lm1. eapply sim_rt. eapply (rt_header (obj_len o + (tstring_sizeof n + tstring_sizeof t)));
    [rt_side|]. intros hp hl.
  eapply rt_seq; [now apply obj_rt| |reflexivity]. cbv beta.
  eapply rt_seq; [now apply rt_string| |reflexivity]. cbv beta.
  apply (rt_end _ _ _ (fun x => mkNamed (obj_seen o) n x)). now apply rt_string.
Qed.

(** ** Attributes: rbase/attfill.rs, attline.rs, attmarker.rs.  [Color]
    (rcolors) is a bijection with [i16], so it is modelled by its number. *)
Record attfill := mkFill { af_color : Z; af_style : Z }.
Record attline := mkLine { al_color : Z; al_style : Z; al_width : Z }.
Record attmarker := mkMarker { am_color : Z; am_style : Z; am_width : Z (* f32 bits *) }.

(** attfill.rs 15-23, attline.rs 15-24, attmarker.rs 15-24 *)
Definition attfill_default := mkFill 0 1001.
Definition attline_default := mkLine 602 1 1.
Definition attmarker_default := mkMarker 1 1 1065353216.

(** rbase/attfill.rs 25-54 *)
Definition attfill_marshal (a : attfill) : W Z :=
  with_header 2 (write_i16 (af_color a) ;;; write_i16 (af_style a)).
Definition attfill_unmarshal : R attfill :=
  h <- read_header ;;
  ensure_max (h_vers h) 2 ;;;
  c <- read_i16 ;; s <- read_i16 ;; ret (mkFill c s).

(** rbase/attline.rs 26-57 *)
Definition attline_marshal (a : attline) : W Z :=
  with_header 2 (write_i16 (al_color a) ;;; write_i16 (al_style a) ;;; write_i16 (al_width a)).
Definition attline_unmarshal : R attline :=
  h <- read_header ;;
  ensure_max (h_vers h) 2 ;;;
  c <- read_i16 ;; s <- read_i16 ;; w <- read_i16 ;; ret (mkLine c s w).

(** rbase/attmarker.rs 26-56 *)
Definition attmarker_marshal (a : attmarker) : W Z :=
  with_header 2 (write_i16 (am_color a) ;;; write_i16 (am_style a) ;;; write_f32 (am_width a)).
Definition attmarker_unmarshal : R attmarker :=
  h <- read_header ;;
  ensure_max (h_vers h) 2 ;;;
  c <- read_i16 ;; s <- read_i16 ;; w <- read_f32 ;; ret (mkMarker c s w).

(** What the format can represent. *)
Definition attfill_ok a := is_i16 (af_color a) /\ is_i16 (af_style a).
Definition attline_ok a := is_i16 (al_color a) /\ is_i16 (al_style a) /\ is_i16 (al_width a).
Definition attmarker_ok a := is_i16 (am_color a) /\ is_i16 (am_style a) /\ is_u32 (am_width a).

Lemma rt_gate {X V U} n (wm : W X) (m : R U) (k : U -> R V) u v :
  m = ret u -> rt n wm (k u) v -> rt n wm (bind m k) v.
Proof. intros -> H. eapply rt_rext; [exact H|]. intros r; reflexivity. Qed.

Lemma attfill_rt a : attfill_ok a -> rt 10 (attfill_marshal a) attfill_unmarshal a.
Proof.
  destruct a as [c s]. intros (Hc & Hs). cbn in *. unfold attfill_marshal, attfill_unmarshal; cbn.
  apply (rt_header 4); [rt_side|]. intros hp hl. apply (rt_gate _ _ _ _ tt); [reflexivity|].
  eapply rt_len with (n := 2 + 2); [|reflexivity]. rt_step.
  apply (rt_end _ _ _ (fun x => mkFill c x)). rt_atom.
Qed.

Lemma attline_rt a : attline_ok a -> rt 12 (attline_marshal a) attline_unmarshal a.
Proof.
  destruct a as [c s w]. intros (Hc & Hs & Hw). cbn in *. unfold attline_marshal, attline_unmarshal; cbn.
  apply (rt_header 6); [rt_side|]. intros hp hl. apply (rt_gate _ _ _ _ tt); [reflexivity|].
  eapply rt_len with (n := 2 + (2 + 2)); [|reflexivity]. rt_step. rt_step.
  apply (rt_end _ _ _ (fun x => mkLine c s x)). rt_atom.
Qed.

Lemma attmarker_rt a : attmarker_ok a -> rt 14 (attmarker_marshal a) attmarker_unmarshal a.
Proof.
  destruct a as [c s w]. intros (Hc & Hs & Hw). cbn in *. unfold attmarker_marshal, attmarker_unmarshal; cbn.
  apply (rt_header 8); [rt_side|]. intros hp hl. apply (rt_gate _ _ _ _ tt); [reflexivity|].
  eapply rt_len with (n := 2 + (2 + 4)); [|reflexivity]. rt_step. rt_step.
  apply (rt_end _ _ _ (fun x => mkMarker c s x)). now apply rt_f32.
Qed.

(** ** ROOT::TIOFeatures: rtree/tree/tio_features.rs *)

(** tio_features.rs 33-45 *)
Definition iobits_marshal (v : Z) : W Z :=
  with_header 1 ((if negb (v =? 0) then put [26; 161; 47; 16] else ret tt) ;;; write_u8 v).

(** tio_features.rs 7-25 *)
Definition iobits_unmarshal : R Z :=
  h <- read_header ;;
  ensure_max (h_vers h) 1 ;;;
  b <- read_u8 ;;
  if negb (b =? 0) then extract 3 ;;; read_u8 else ret 0.

Lemma iobits_rt v : is_u8 v ->
  rt (if v =? 0 then 7 else 11) (iobits_marshal v) iobits_unmarshal v.
Proof.
  intros Hv. unfold iobits_marshal, iobits_unmarshal. destruct (Z.eqb_spec v 0) as [->|Hn]; cbn [negb].
  - apply (rt_header 1); [rt_side|]. intros hp hl. apply (rt_gate _ _ _ _ tt); [reflexivity|].
    eapply rt_wext with (wm := write_u8 0); [|intros s; reflexivity].
    apply rt_last with (v := 0); [rt_atom|]. apply rt_ret.
  - apply (rt_header 5); [rt_side|]. intros hp hl. apply (rt_gate _ _ _ _ tt); [reflexivity|].
    eapply rt_wext with (wm := write_u8 26 ;;; (put [161; 47; 16] ;;; write_u8 v)).
    + eapply rt_len with (n := 1 + (3 + 1)); [|reflexivity].
      rt_step. change (negb (26 =? 0)) with true. cbv iota.
      eapply rt_seq; [apply (rt_bytes_n 3); reflexivity| |reflexivity]. rt_atom.
    + intros s. unfold write_u8, write_int, put, bind. unfold w_app, w_set_p; cbn [wp woff wrefp wrefs].
      rewrite <- !app_assoc. reflexivity.
Qed.

(** ** TObjArray and TList: rcont/objarray.rs, rcont/list.rs *)

(** The reading loops of rcont/list.rs and rcont/objarray.rs: absent objects are left out *)
Definition cat_opts {O} (l : list (option O)) : list O :=
  flat_map (fun o => match o with Some x => [x] | None => [] end) l.

(** objarray.rs 167-196; [items] are the calls [write_object_any(obj, addr)] *)
Definition objarray_marshal (name : option bytes) (items : list (W unit)) : W Z :=
  with_header 3
    (obj_marshal (mkObj 0 50331648) ;;;
     write_string (match name with None => [] | Some s => s end) ;;;
     write_i32 (zlen items) ;;;
     write_i32 0 ;;;
     iterM (fun m => m) items).

(** objarray.rs 103-147: name and objects (nil entries are dropped) *)
Definition objarray_unmarshal {O} (ro : R (option O)) : R (option bytes * list O) :=
  h <- read_header ;;
  ensure_max (h_vers h) 3 ;;;
  (if 2 <? h_vers h then obj_unmarshal ;;; ret tt else ret tt) ;;;
  name <- (if 1 <? h_vers h then s <- read_string ;; ret (Some s) else ret None) ;;
  n <- read_i32 ;;
  read_i32 ;;;
  os <- repeatM (Z.to_nat n) ro ;;
  ret (name, cat_opts os).

(** list.rs 157-184 *)
Definition list_marshal (name : option bytes) (items : list (W unit)) : W Z :=
  beg <- gets wpos ;;
  with_header 5
    (obj_marshal obj_default ;;;
     write_string (match name with None => [] | Some s => s end) ;;;
     write_i32 (to_i32 (zlen items)) ;;;
     iterM (fun m => m ;;; write_string []) items) ;;;
  e <- gets wpos ;;
  ret (e - beg).

(** list.rs 85-116 *)
Definition list_unmarshal {O} (ro : R (option O)) : R (bytes * list O) :=
  h <- read_header ;;
  ensure_max (h_vers h) 5 ;;;
  ensure_min (h_vers h) 3 ;;;
  obj_unmarshal ;;;
  name <- read_string ;;
  n <- read_i32 ;;
  os <- repeatM (Z.to_nat n)
          (o <- ro ;;
           match o with
           | None => panic
           | Some x => b <- read_u8 ;; if 0 <? b then panic else ret x
           end) ;;
  ret (name, os).

Lemma zlen_to_nat {A} (l : list A) : Z.to_nat (zlen l) = length l.
Proof. rewrite zlen_def. apply Nat2Z.id. Qed.

Lemma str_ok_nil : str_ok [].
Proof. split; [rewrite zlen_nil; lia|reflexivity]. Qed.

Lemma obj_default_ok : obj_ok obj_default.
Proof. split; cbv; split; congruence. Qed.

Lemma objarray_sim {O} B A name (items : list (W unit)) (ro : R (option O)) os :
  zlen items < 2 ^ 31 -> (forall s, name = Some s -> str_ok s) ->
  sim B A (iterM (fun m => m) items) (repeatM (length items) ro) os ->
  sim0 B A (objarray_marshal name items) (objarray_unmarshal ro)
    (Some (match name with None => [] | Some s => s end), cat_opts os).
Proof.
  intros Hl Hn H. pose proof (zlen_nonneg items). apply sim_header; [rt_side|]. intros hp hl. cbn [h_vers].
  apply (sim_gate _ _ _ _ _ _ tt); [reflexivity|].
  change (2 <? 3) with true. change (1 <? 3) with true. cbv iota.
  set (nm := match name with None => [] | Some s => s end).
  assert (Hs : str_ok nm) by (destruct name; [now apply Hn|exact str_ok_nil]).
  apply sim_rassoc. eapply sim_seq_rt; [apply obj_rt; apply obj_default_ok|]. cbv beta.
  apply (sim_gate _ _ _ _ _ _ tt); [reflexivity|].
  apply sim_rassoc. eapply sim_seq_rt; [apply rt_string; exact Hs|]. cbv beta.
  apply (sim_gate _ _ _ _ _ _ (Some nm)); [reflexivity|].
  sim_step. sim_step. rewrite zlen_to_nat.
  apply (sim_end B A _ _ (fun x => (Some nm, cat_opts x))). exact H.
Qed.

Lemma list_sim {O} B A name (items : list (W unit)) (ro : R (option O)) os :
  zlen items < 2 ^ 31 -> (forall s, name = Some s -> str_ok s) ->
  sim B A (iterM (fun m => m ;;; write_string []) items)
    (repeatM (length items)
       (o <- ro ;;
        match o with
        | None => panic
        | Some x => b <- read_u8 ;; if 0 <? b then panic else ret x
        end)) os ->
  sim0 B A (list_marshal name items) (list_unmarshal ro)
    (match name with None => [] | Some s => s end, os).
Proof.
  intros Hl Hn H. pose proof (zlen_nonneg items).
  set (nm := match name with None => [] | Some s => s end).
  assert (Hs : str_ok nm) by (destruct name; [now apply Hn|exact str_ok_nil]).
  assert (G : sim0 B A
    (with_header 5
      (obj_marshal obj_default ;;; write_string nm ;;; write_i32 (to_i32 (zlen items)) ;;;
       iterM (fun m => m ;;; write_string []) items)) (list_unmarshal ro) (nm, os)).
  { apply sim_header; [rt_side|]. intros hp hl. cbn [h_vers].
    apply (sim_gate _ _ _ _ _ _ tt); [reflexivity|].
    apply (sim_gate _ _ _ _ _ _ tt); [reflexivity|].
    eapply sim_seq_rt; [apply obj_rt; apply obj_default_ok|]. cbv beta.
    eapply sim_seq_rt; [apply rt_string; exact Hs|]. cbv beta.
    eapply sim_seq_rt; [apply rt_i32_cast; rt_side|]. cbv beta. rewrite zlen_to_nat.
    apply (sim_end B A _ _ (fun x => (nm, x))). exact H. }
  intros s P Ho HA HB. destruct (G s P Ho HA HB) as (x & s' & w & E & R).
  exists (wpos s' - wpos s), s', w. split; [|exact R].
  unfold list_marshal. unfold gets at 1, bind at 1. fold nm. rewrite (bind_Ok _ _ _ _ _ E). reflexivity.
Qed.

(** Lists of back-references. *)
Lemma sim_list_refs {T V} (wf : T -> W unit) (rf : R V) (bd : T -> list Z) (vf : T -> V) (l : list T) :
  (forall t, In t l -> sim (bd t) [] (wf t) rf (vf t)) ->
  sim (flat_map bd l) [] (iterM wf l) (repeatM (length l) rf) (map vf l).
Proof.
  induction l as [|t l IH]; intros H; cbn [flat_map iterM repeatM map length].
  - apply sim_ret.
  - eapply sim_bind with (B1 := bd t) (A1 := []) (B2 := flat_map bd l) (A2 := []).
    + apply H; now left.
    + intros _. apply (sim_end _ _ _ _ (fun xs => vf t :: xs)). apply IH. intros; apply H; now right.
    + apply incl_appl, incl_refl.
    + apply incl_tran with (flat_map bd l); [apply incl_refl|].
      intros a Ha. apply in_app_iff. left. apply in_app_iff; now right.
    + intros a; cbn; tauto.
    + intros a [].
    + intros a _ [].
Qed.

Lemma iterM_map {S A B} (f : A -> B) (g : B -> M S unit) l s :
  iterM g (map f l) s = iterM (fun x => g (f x)) l s.
Proof.
  revert s. induction l as [|a l IH]; intros s; [reflexivity|]. cbn [map iterM].
  unfold bind. destruct (g (f a) s) as [[? ?]| | | |]; auto.
Qed.
