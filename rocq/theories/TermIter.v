(** Reading columns, slices and structures ends. *)
From Verif Require Import Derive.
From Verif Require Export TermZip.

Section WithDecoders.
Context {LIB : decoders} {HLIB : decoders_end LIB}.

(** ** Names *)
Lemma ends_title_dim s : ends (title_dim s).
Proof. unfold title_dim. destruct (has_dims s); [|auto with ends]. destruct (item_dim s); [|auto with ends]. destruct (_ <? _); auto with ends. Qed.
Lemma ends_clean_type_name s : ends (clean_type_name s).
Proof. unfold clean_type_name. destruct (ascii s); auto with ends. Qed.
Lemma ends_base_type_name b : ends (base_type_name b).
Proof.
  unfold base_type_name. destruct (br_leaves b) as [|l [|? ?]]; auto with ends. apply ends_rbind; [apply ends_title_dim|].
  intros dim _. destruct (leaf_type_name l); auto with ends.
Qed.
Lemma ends_item_type_name sis b : ends (item_type_name sis b).
Proof.
  unfold item_type_name. destruct (br_elem b) as [e|]; [|apply ends_base_type_name].
  destruct (br_subs b) as [|s subs].
  - destruct (br_leaves b) as [|l [|? ?]]; try apply ends_base_type_name. apply ends_rbind; [apply ends_title_dim|]. intros dim _.
    destruct (leaf_type_name l); [auto with ends|]. destruct (lf_kind l); auto with ends.
    destruct (from_leaftype (lf_b l)); [auto with ends|]. destruct (_ =? 65); [auto with ends|]. destruct (_ || _); [|auto with ends].
    destruct (br_streamer _ _ _); apply ends_clean_type_name.
  - destruct (br_top b); [destruct (be_class e); auto with ends|]. destruct (br_streamer _ _ _); auto with ends.
Qed.

(** ** Columns *)
Lemma unmarshal_nothing t off : takes t = true -> unmarshal t (mkR [] 0 off [] None) = Panic.
Proof.
  induction t as [p| |t IH|n t IH]; intros T.
  - destruct p; reflexivity.
  - reflexivity.
  - reflexivity.
  - cbn [takes] in T. destruct n as [|n]; [discriminate|]. cbn [unmarshal repeatM]. unfold bind at 1 2. rewrite IH; [reflexivity|].
    apply andb_prop in T. apply T.
Qed.
(** No chunk of the sub-branches of [b] is hollow. *)
Definition solid_subs (d : bytes) (sis : list sinfo) (b : branch) : Prop :=
  forall s chs, In s (br_subs b) -> baskets_buffer d sis (as_base s) = Ok chs -> Forall solid chs.
Lemma get_basket_ends {A} d sis (func : R A) b : fw 0 func ->
  br_subs b = [] \/ (forall v, rrun 0 func [] <> Ok v) \/ solid_subs d sis b -> ends (get_basket d sis func b).
Proof.
  intros F H. destruct (br_subs b) as [|s subs] eqn:E; [now apply get_basket_ends_plain|].
  unfold get_basket. rewrite E. apply ends_rbind; [apply ends_res_map; intros; apply ends_baskets_buffer|].
  intros its EI. apply ends_zip_all; [intros buf; apply ends_unwrap; now apply (ends_fw _ _ _ 0)|].
  destruct H as [H|[H|H]]; [discriminate| |].
  - left. intros v X. destruct (rrun 0 func []) as [a| | | |] eqn:ER; try discriminate. now apply (H a).
  - right. unfold solid_subs in H. rewrite E in H. clear E. revert its EI H. generalize (s :: subs) as l. clear.
    induction l as [|s l IH]; intros its EI H; cbn [res_map] in EI; [injection EI as <-; constructor|].
    apply rbind_inv in EI as (c & E1 & EI). apply rbind_inv in EI as (cs & E2 & EI). injection EI as <-.
    constructor; [apply (H s); [now left|exact E1]|]. apply IH; [exact E2|]. intros s' chs I. apply H. now right.
Qed.
Lemma as_iter_ends d sis t b : takes t = true \/ br_subs b = [] \/ solid_subs d sis b -> ends (as_iter d sis t b).
Proof.
  intros H. unfold as_iter. apply ends_rbind; [apply ends_item_type_name|]. intros name _. destruct (existsb _ _); [|auto with ends].
  apply get_basket_ends; [apply fw_value0|]. destruct H as [H|[H|H]]; auto. right. left. intros v X.
  unfold rrun, r_new in X. rewrite unmarshal_nothing in X by exact H. discriminate.
Qed.
Lemma as_iter_slice_ends d sis t b : takes t = true -> br_subs b = [] \/ solid_subs d sis b -> ends (as_iter_slice d sis t b).
Proof.
  intros T H. unfold as_iter_slice. apply ends_rbind; [apply ends_item_type_name|]. intros name _. destruct (existsb _ _); [|auto with ends].
  apply get_basket_ends; [now apply fw_slice|]. destruct H as [H|H]; auto.
Qed.

(** ** Structures *)
Lemma rit_rec' (P : rit -> Prop) : (forall l, P (ItVals l)) -> (forall fs, Forall P fs -> P (ItStruct fs)) ->
  (forall cols, P (ItSliced cols)) -> forall i, P i.
Proof.
  intros H1 H2 H3. fix F 1. intros [l|fs|cols]; [apply H1| |apply H3]. apply H2. induction fs as [|f fs IH]; constructor; [apply F|exact IH].
Qed.
Lemma rty_rec' (P : rty -> Prop) : (forall t, P (RPlain t)) -> (forall g fs, Forall (fun f => P (snd f)) fs -> P (RStruct g fs)) ->
  (forall g fs, P (RSliced g fs)) -> forall w, P w.
Proof.
  intros H1 H2 H3. fix F 1. intros [t|g fs|g fs]; [apply H1| |apply H3]. apply H2. induction fs as [|f fs IH]; constructor; [apply F|exact IH].
Qed.
(** The iterator goes over a column. *)
Fixpoint it_col (i : rit) : bool := match i with ItStruct fs => existsb it_col fs | _ => true end.

Definition nexts := fix go (l : list rit) : res (option (list sval * list rit)) :=
  match l with
  | [] => Ok (Some ([], []))
  | i :: r =>
      x <-? it_next i ;;
      match x with
      | None => Ok None
      | Some (v, i') =>
          y <-? go r ;;
          match y with None => Ok None | Some (vs, is) => Ok (Some (v :: vs, i' :: is)) end
      end
  end.
Lemma it_next_struct fs : it_next (ItStruct fs) =
  (r <-? nexts fs ;; match r with None => Ok None | Some (vs, is) => Ok (Some (SStruct vs, ItStruct is)) end).
Proof. reflexivity. Qed.
Lemma ends_slice_of_structs cols : ends (slice_of_structs cols).
Proof.
  unfold slice_of_structs. destruct (rev cols); [auto with ends|]. apply ends_rbind; [|auto with ends].
  apply ends_res_map. intros i _. apply ends_rbind; [|auto with ends]. apply ends_res_map. intros c _. destruct (nth_error c i); auto with ends.
Qed.
Lemma ends_it_next i : ends (it_next i).
Proof.
  induction i as [l|fs IH|cols] using rit_rec'.
  - destruct l; intros X; discriminate X.
  - rewrite it_next_struct. apply ends_rbind; [|intros [[vs is]|] _; auto with ends].
    induction IH as [|i fs H _ IHf]; [intros X; discriminate X|]. cbn [nexts]. apply ends_rbind; [exact H|].
    intros [[v i']|] _; [|auto with ends]. apply ends_rbind; [exact IHf|]. intros [[vs is]|] _; auto with ends.
  - cbn [it_next]. match goal with |- context [existsb ?f ?x] => destruct (existsb f x) end; [auto with ends|].
    apply ends_rbind; [apply ends_slice_of_structs|auto with ends].
Qed.
Lemma it_next_facts i : forall v i', it_next i = Ok (Some (v, i')) ->
  it_col i' = it_col i /\ (it_size i' <= it_size i)%nat /\ (it_col i = true -> it_size i' < it_size i)%nat.
Proof.
  induction i as [l|fs IH|cols] using rit_rec'; intros v i' H.
  - destruct l as [|x l]; [discriminate|]. cbn [it_next] in H. injection H as <- <-. cbn [it_col it_size length]. repeat split; lia.
  - rewrite it_next_struct in H. apply rbind_inv in H as ([[vs is]|] & H & E); [|discriminate]. injection E as <- <-.
    cbn [it_col it_size]. enough (X : existsb it_col is = existsb it_col fs /\ (list_sum (map it_size is) <= list_sum (map it_size fs))%nat /\
      (existsb it_col fs = true -> list_sum (map it_size is) < list_sum (map it_size fs))%nat) by exact X.
    revert vs is H. induction IH as [|f fs Hf _ IHf]; intros vs is H; cbn [nexts] in H.
    + injection H as <- <-. cbn. repeat split; lia || discriminate.
    + apply rbind_inv in H as ([[v f']|] & H1 & H); [|discriminate]. apply rbind_inv in H as ([[vs' is']|] & H2 & H); [|discriminate].
      injection H as <- <-. apply Hf in H1 as (A1 & A2 & A3). apply IHf in H2 as (B1 & B2 & B3).
      cbn [existsb map]. rewrite !list_sum_cons, A1, B1. split; [reflexivity|]. split; [lia|]. intros O. apply orb_prop in O as [O|O]; [specialize (A3 O)|specialize (B3 O)]; lia.
  - cbn [it_next] in H. destruct (existsb _ cols) eqn:E in H; [discriminate|]. apply rbind_inv in H as (s & HS & H). injection H as <- <-.
    cbn [it_col it_size]. split; [reflexivity|].
    enough (X : (list_sum (map (@length _) (map (fun c => tl c) cols)) + length cols = list_sum (map (@length (list val)) cols))%nat).
    { destruct cols as [|c cols]; [discriminate HS|]. cbn [length] in X. split; [lia|]. intros _. lia. }
    clear HS. induction cols as [|c cols IHc]; [reflexivity|]. cbn [existsb] in E. apply orb_false_elim in E as [E1 E2]. specialize (IHc E2).
    destruct c as [|x c]; [discriminate|]. cbn [map tl length]. rewrite !list_sum_cons. cbn [length]. lia.
Qed.
Lemma ends_it_collect n : forall i, it_col i = true -> (it_size i < n)%nat -> ends (it_collect n i).
Proof.
  induction n as [|n IH]; intros i C L; [lia|]. cbn [it_collect]. apply ends_rbind; [apply ends_it_next|].
  intros [[v i']|] E; [|auto with ends]. apply it_next_facts in E as (A & _ & B). specialize (B C).
  apply ends_rbind; [|auto with ends]. apply IH; [congruence|lia].
Qed.

(** The structure has a column; its types take bytes. *)
Fixpoint has_column (w : rty) : bool := match w with RStruct _ fs => existsb (fun f => has_column (snd f)) fs | _ => true end.
Fixpoint all_take (w : rty) : bool :=
  match w with
  | RPlain t => takes t
  | RStruct _ fs => forallb (fun f => all_take (snd f)) fs
  | RSliced _ fs => forallb (fun f => takes (snd f)) fs
  end.
Fixpoint no_slices (w : rty) : bool :=
  match w with RPlain _ => true | RStruct _ fs => forallb (fun f => no_slices (snd f)) fs | RSliced _ _ => false end.

Section Tree.
Variables (d : bytes) (sis : list sinfo) (t : tree branch).
Definition trees := fun b g => fix go (l : list (fopts * rty)) : res (list rit) :=
  match l with
  | [] => Ok []
  | (f, w') :: r => i <-? from_branch_tree d sis t (field_bname b g f) w' ;; is <-? go r ;; Ok (i :: is)
  end.
Lemma from_branch_struct b g fs : from_branch_tree d sis t b (RStruct g fs) = (its <-? trees b g fs ;; Ok (ItStruct its)).
Proof. reflexivity. Qed.
Lemma ends_plain_iter {A} (read : branch -> res (list A)) b :
  (forall n br, tree_branch t n = Some br -> ends (read br)) -> ends (plain_iter t read b).
Proof. intros H. unfold plain_iter. destruct (tree_branch t (final_name b)) eqn:E; [now apply (H (final_name b))|auto with ends]. Qed.
Lemma ends_from_branch_tree w : all_take w = true ->
  no_slices w = true \/ (forall n b, tree_branch t n = Some b -> br_subs b = [] \/ solid_subs d sis b) ->
  forall b, ends (from_branch_tree d sis t b w).
Proof.
  induction w as [ty|g fs IH|g fs] using rty_rec'; intros T S b.
  - cbn [from_branch_tree]. apply ends_rbind; [|auto with ends]. apply ends_plain_iter. intros n br _. apply as_iter_ends. now left.
  - rewrite from_branch_struct. apply ends_rbind; [|auto with ends]. cbn [all_take no_slices] in *.
    induction IH as [|[f w] fs H _ IHf]; [intros X; discriminate X|]. cbn [trees forallb snd] in *. apply andb_prop in T as [T1 T2].
    assert (S' : (no_slices w = true \/ (forall n b, tree_branch t n = Some b -> br_subs b = [] \/ solid_subs d sis b)) /\
                 (forallb (fun f => no_slices (snd f)) fs = true \/ (forall n b, tree_branch t n = Some b -> br_subs b = [] \/ solid_subs d sis b))).
    { destruct S as [S|S]; [apply andb_prop in S as [? ?]; auto|auto]. }
    destruct S' as [S1 S2]. apply ends_rbind; [now apply H|]. intros i _. apply ends_rbind; [now apply IHf|auto with ends].
  - destruct S as [S|S]; [discriminate|]. cbn [from_branch_tree all_take] in *. apply ends_rbind; [|auto with ends]. apply ends_res_map. intros [f ty] I.
    apply ends_plain_iter. intros n br E. rewrite forallb_forall in T. apply as_iter_slice_ends; [exact (T _ I)|exact (S _ _ E)].
Qed.
Lemma from_branch_col w : forall b i, from_branch_tree d sis t b w = Ok i -> it_col i = has_column w.
Proof.
  induction w as [ty|g fs IH|g fs] using rty_rec'; intros b i H.
  - cbn [from_branch_tree] in H. apply rbind_inv in H as (l & _ & H). now injection H as <-.
  - rewrite from_branch_struct in H. apply rbind_inv in H as (its & H & E). injection E as <-. cbn [it_col has_column].
    revert its H. induction IH as [|[f w] fs Hw _ IHf]; intros its H; cbn [trees] in H; [now injection H as <-|].
    apply rbind_inv in H as (i & H1 & H). apply rbind_inv in H as (is & H2 & H). injection H as <-. cbn [existsb snd].
    cbn [snd] in Hw. now rewrite (Hw _ _ H1), (IHf _ H2).
  - cbn [from_branch_tree] in H. apply rbind_inv in H as (l & _ & H). now injection H as <-.
Qed.
Lemma from_tree_ends w : has_column w = true -> all_take w = true ->
  no_slices w = true \/ (forall n b, tree_branch t n = Some b -> br_subs b = [] \/ solid_subs d sis b) ->
  ends (from_tree d sis t w).
Proof.
  intros C T S. unfold from_tree. apply ends_rbind; [now apply ends_from_branch_tree|]. intros i E.
  apply ends_it_collect; [|lia]. now rewrite (from_branch_col _ _ _ E).
Qed.
End Tree.
End WithDecoders.
