(** Writing succeeds: programs whose contents fit into a file run to the end. *)
From Verif Require Import Base Bytes Values Key File Column TreeWrite TreeSession StreamerDb Spec CodecFacts SpecTree Sample PropTree
  SpecRoom RoomFacts.

(** ** C45 *)

(** Creating a file, writing any supported tables to it and closing it succeeds, and the
    file is no larger than [room] says, provided [room] is at most 2*10^9 bytes. *)
Theorem C45_what_fits_is_written path ts : user_path path -> Forall table_ok ts -> Forall writable ts -> few (map tb_name ts) ->
  room path ts <= 2000000000 ->
  exists es f, finished path ts es f /\ zlen (f_disk f) <= room path ts.
Proof. exact (fits path ts). Qed.

(** And what was put in can be read again. *)
Theorem C45_what_fits_is_read_back path ts : user_path path -> short_path path -> Forall table_ok ts -> Forall writable ts -> few (map tb_name ts) ->
  room path ts <= 2000000000 ->
  exists f fo, session real_db path (map calls ts) = (f, Ok (map heard ts)) /\ open_file (f_disk f) = Ok fo /\ shows_tables fo ts.
Proof.
  intros U S T W N R. destruct (fits path ts U T W N R) as (es & f & F & _).
  destruct (C13_file_gives_back_its_tables _ _ _ _ F S) as (fo & O & G).
  exists f, fo. split; [|split; [exact O|exact G]].
  pose proof (C15_callbacks_hear_every_row _ _ _ _ F) as ->. apply F.
Qed.

(** The sample fits, and so does a column of sixty million numbers. *)
Example room0 : room path0 tables0 = 94124 /\ Forall writable tables0.
Proof.
  split; [vm_compute; reflexivity|]. unfold tables0.
  repeat (constructor; [split; [vm_compute; intuition discriminate|cbn [columns tb_setup]; repeat (constructor; [split; [apply steady_fits|vm_compute; discriminate]|])]|]);
    try constructor; cbn [steady c_type c_values]; try exact I; left; repeat constructor; vm_compute; discriminate.
Qed.
Lemma total_repeat {A} (g : A -> Z) a k : total g (repeat a k) = Z.of_nat k * g a.
Proof. induction k as [|k IH]; [reflexivity|]. cbn [repeat total]. rewrite IH. lia. Qed.
Example long_column k : Z.of_nat k <= 60000000 ->
  exists es f, finished path0 [Table (bs "t") [AddColumn (Column (bs "x") (TPrim F64) (repeat (VInt 4607182418800017408) k))]] es f.
Proof.
  intros K. set (ts := [Table _ _]).
  assert (B : column_bytes (Column (bs "x") (TPrim F64) (repeat (VInt 4607182418800017408) k)) = 8 * Z.of_nat k).
  { unfold column_bytes. cbn [c_type c_values]. rewrite total_repeat. cbn [value_bytes]. change (Z.of_nat (scalar_bytes F64)) with 8. lia. }
  destruct (C45_what_fits_is_written path0 ts) as (es & f & H & _); [split; sample| | |apply few_short; vm_compute; discriminate| |eauto].
  - constructor; [|constructor]. split; [sample|]. split; [sample|]. cbn [columns tb_setup]. constructor; [|constructor].
    split; [exact I|]. split; [sample|]. split; [sample|]. cbn [c_type c_values]. apply Forall_forall. intros v Hv. apply repeat_spec in Hv. subst v.
    constructor. sample.
  - constructor; [|constructor]. split; [vm_compute; intuition discriminate|]. cbn [columns tb_setup]. constructor; [|constructor].
    split; [exact I|]. apply few_baskets. rewrite B. lia.
  - unfold room, ts. cbn [total]. unfold table_room. cbn [columns tb_setup total]. unfold column_room, baskets. rewrite B. cbn [c_name c_values tb_name].
    rewrite (zlen_def (repeat _ k)), repeat_length.
    change (zlen (bs "x")) with 1. change (zlen (bs "t")) with 1. change (zlen path0) with 6.
    pose proof (Z.div_le_mono (8 * Z.of_nat k) 480000000 16384 ltac:(lia) ltac:(lia)) as D. change (480000000 / 16384) with 29296 in D. lia.
Qed.

(** Sixty thousand trees fit into one file, half of them under each of two names. *)
Lemma times_repeat n m k : times n (repeat m k) = if beqb n m then Z.of_nat k else 0.
Proof.
  unfold times. induction k as [|k IH]; [now destruct (beqb n m)|]. cbn [repeat filter]. destruct (beqb n m); [|exact IH].
  rewrite zlen_cons, IH. lia.
Qed.
Lemma map_repeated {A B} (g : A -> B) a k : map g (repeat a k) = repeat (g a) k.
Proof. induction k as [|k IH]; [reflexivity|]. cbn [repeat map]. now rewrite IH. Qed.
Lemma total_both {A} (g : A -> Z) a b : total g (a ++ b) = total g a + total g b.
Proof. induction a as [|x a IH]; [reflexivity|]. cbn [app total]. rewrite IH. lia. Qed.
Example many_trees k : Z.of_nat k <= 30000 ->
  exists es f, finished path0 (repeat (Table (bs "a") []) k ++ repeat (Table (bs "b") []) k) es f.
Proof.
  intros K. set (ts := repeat _ k ++ _).
  assert (E : forall t, In t ts -> t = Table (bs "a") [] \/ t = Table (bs "b") []).
  { intros t I. apply in_app_or in I as [I|I]; apply repeat_spec in I; auto. }
  destruct (C45_what_fits_is_written path0 ts) as (es & f & H & _); [split; sample| | | | |eauto].
  - apply Forall_forall. intros t I. destruct (E t I) as [-> | ->]; (split; [sample|]; split; [sample|constructor]).
  - apply Forall_forall. intros t I. destruct (E t I) as [-> | ->]; (split; [vm_compute; intuition discriminate|constructor]).
  - intros n. unfold ts. rewrite map_app, !map_repeated, times_app, !times_repeat. cbn [tb_name].
    destruct (beqb_spec n (bs "a")) as [->|]; [change (beqb (bs "a") (bs "b")) with false; cbv iota; lia|]. destruct (beqb n (bs "b")); lia.
  - unfold room, ts. rewrite total_both, !total_repeat. unfold table_room. cbn [columns tb_setup total tb_name].
    change (zlen (bs "a")) with 1. change (zlen (bs "b")) with 1. change (zlen path0) with 6. lia.
Qed.
