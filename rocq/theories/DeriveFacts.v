(** Facts about the derive macros. *)
From Verif Require Import SpecDerive SpecRead ZipFacts SessFacts TreeOps.
From Verif Require Export Derive.

(** ** Names *)

Lemma dotted_snoc path x : dotted (path ++ [x]) = match path with [] => x | _ => dotted path ++ bs "." ++ x end.
Proof.
  induction path as [|y path IH]; [reflexivity|]. cbn [app]. destruct path as [|z path]; [reflexivity|].
  change (dotted (y :: (z :: path) ++ [x])) with (y ++ bs "." ++ dotted ((z :: path) ++ [x])). rewrite IH.
  change (dotted (y :: z :: path)) with (y ++ bs "." ++ dotted (z :: path)). now rewrite <- !app_assoc.
Qed.

Definition bn_name (b : bname) : option bytes := let '(BName _ n _) := b in n.
(** [b] stands for [path]. *)
Definition bn_at (b : bname) (path : list bytes) : Prop :=
  final_name b = dotted path /\ (bn_name b = None <-> path = []).
Lemma bn_at_new : bn_at bn_new [].
Proof. split; [reflexivity|split; reflexivity]. Qed.
Lemma bn_at_field b path g f : bn_at b path -> bn_at (field_bname b g f) (field_path path g f).
Proof.
  intros [F N]. unfold field_bname, field_path. destruct b as [pa n p]. cbn [bn_name make_child] in *.
  destruct (fo_absolute f) as [a|].
  - destruct g, (fo_prefix f); cbn [make_absolute with_prefix or_else]; (split; [reflexivity|split; discriminate]).
  - assert (E : forall q m, final_name (BName match n with Some _ => Some (BName pa n p) | None => None end (Some m) q) =
        dotted (path ++ [or_else q [] ++ m])).
    { intros q m. rewrite dotted_snoc. destruct n as [n|].
      - destruct path as [|x path]; [discriminate (proj2 N eq_refl)|]. cbn [final_name opt_bytes] in *. rewrite F.
        destruct q; cbn [opt_bytes or_else]; now rewrite <- app_assoc.
      - rewrite (proj1 N eq_refl). cbn [final_name opt_bytes app]. now destruct q. }
    assert (NE : forall (l : list bytes) x, l ++ [x] = [] <-> False) by (intros [|y l] x; split; [discriminate|contradiction|discriminate|contradiction]).
    destruct g as [g|], (fo_prefix f) as [q|]; cbn [with_prefix]; (split; [|rewrite NE; split; [discriminate|contradiction]]); rewrite E; cbn [or_else];
      now destruct (fo_rename f).
Qed.

(** ** Reading *)

Fixpoint yields (i : rit) (l : list sval) : Prop :=
  match l with
  | [] => it_next i = Ok None
  | v :: r => exists i', it_next i = Ok (Some (v, i')) /\ yields i' r
  end.
Lemma collect_yields : forall l i fuel, yields i l -> (length l < fuel)%nat -> it_collect fuel i = Ok l.
Proof.
  induction l as [|v l IH]; intros i [|fuel] H L; cbn [yields length it_collect] in *; try lia.
  - now rewrite H.
  - destruct H as (i' & E & Y). rewrite E. cbn [rbind]. now rewrite (IH i' fuel Y) by lia.
Qed.

Lemma yields_vals l : yields (ItVals l) (map SVal l).
Proof. induction l as [|v l IH]; cbn [map yields]; [reflexivity|]. eexists. split; [reflexivity|exact IH]. Qed.

Definition nexts := fix go (l : list rit) : res (option (list sval * list rit)) :=
  match l with
  | [] => Ok (Some ([], []))
  | i :: r =>
      x <-? it_next i ;;
      match x with
      | None => Ok None
      | Some (v, i') =>
          y <-? go r ;;
          match y with None => Ok None | Some (vs, is) => Ok (Some (v :: vs, i' :: is)) end
      end
  end.
Lemma next_struct fs : it_next (ItStruct fs) =
  (r <-? nexts fs ;; match r with None => Ok None | Some (vs, is) => Ok (Some (SStruct vs, ItStruct is)) end).
Proof. reflexivity. Qed.

Definition nonempty {A} (l : list A) : bool := match l with [] => false | _ => true end.
Lemma nexts_yields its cols : Forall2 yields its cols ->
  if forallb nonempty cols
  then exists is, nexts its = Ok (Some (map (fun c => hd (SVal (VInt 0)) c) cols, is)) /\ Forall2 yields is (map (fun c => tl c) cols)
  else nexts its = Ok None.
Proof.
  induction 1 as [|i c its cols Y _ IH]; cbn [forallb nexts map].
  - exists []. split; [reflexivity|constructor].
  - destruct c as [|v c]; cbn [nonempty andb yields hd tl] in *; [now rewrite Y|]. destruct Y as (i' & E & Y). rewrite E. cbn [rbind].
    destruct (forallb nonempty cols).
    + destruct IH as (is & E' & F). rewrite E'. cbn [rbind]. eexists. split; [reflexivity|]. now constructor.
    + now rewrite IH.
Qed.

Lemma shortest_S {A} (cols : list (list A)) : cols <> [] -> forallb nonempty cols = true -> shortest cols = S (shortest (map (fun c => tl c) cols)).
Proof.
  destruct cols as [|c cols]; [contradiction|]. intros _. cbn [forallb map shortest]. intros H. apply andb_prop in H as [H1 H2].
  destruct c as [|x c]; [discriminate|]. cbn [length tl]. induction cols as [|y cols IH]; cbn [map fold_right]; [reflexivity|].
  cbn [forallb] in H2. apply andb_prop in H2 as [H2 H3]. destruct y as [|z y]; [discriminate|]. cbn [length tl]. rewrite (IH H3). lia.
Qed.
Lemma shortest_0 {A} (cols : list (list A)) : forallb nonempty cols = false -> shortest cols = 0%nat.
Proof.
  destruct cols as [|c cols]; [discriminate|]. cbn [forallb shortest]. intros H. apply fold_min_zero.
  destruct c as [|x c]; [now left|right]. cbn [nonempty andb] in H.
  induction cols as [|y cols IH]; [discriminate|]. cbn [forallb map In] in *. destruct y as [|z y]; [now left|right]. now apply IH.
Qed.
Lemma rows_of_step {A} (x : A) cols : cols <> [] ->
  rows_of x cols = if forallb nonempty cols then map (fun c => hd x c) cols :: rows_of x (map (fun c => tl c) cols) else [].
Proof.
  intros N. unfold rows_of. destruct (forallb nonempty cols) eqn:E; [|now rewrite shortest_0].
  rewrite shortest_S by assumption. cbn [seq map]. f_equal.
  - apply map_ext_in. intros c Hc. rewrite forallb_forall in E. specialize (E c Hc). now destruct c.
  - rewrite <- seq_shift, map_map. apply map_ext. intros i. rewrite map_map. apply map_ext. intros c. destruct c; [now destruct i|reflexivity].
Qed.
Lemma rows_of_length {A} (x : A) cols : length (rows_of x cols) = shortest cols.
Proof. unfold rows_of. now rewrite map_length, seq_length. Qed.

Lemma struct_yields : forall n cols its, cols <> [] -> shortest cols = n -> Forall2 yields its cols ->
  yields (ItStruct its) (map SStruct (rows_of (SVal (VInt 0)) cols)).
Proof.
  induction n as [|n IH]; intros cols its N S F; pose proof (nexts_yields its cols F) as X; rewrite rows_of_step by assumption;
    destruct (forallb nonempty cols) eqn:E; cbn [map yields]; rewrite next_struct.
  - rewrite shortest_S in S by assumption. discriminate.
  - now rewrite X.
  - destruct X as (is & -> & F'). cbn [rbind]. eexists. split; [reflexivity|]. apply IH; [now destruct cols| |exact F'].
    rewrite shortest_S in S by assumption. now injection S.
  - now rewrite X.
Qed.

Lemma res_map_ok {A B} (g : A -> res B) (h : A -> B) l : (forall a, In a l -> g a = Ok (h a)) -> res_map g l = Ok (map h l).
Proof.
  induction l as [|a l IH]; intros H; cbn [res_map map]; [reflexivity|]. rewrite (H a) by now left. cbn [rbind].
  now rewrite IH by (intros; apply H; now right).
Qed.

Lemma slice_rows cols : cols <> [] -> (forall c c', In c cols -> In c' cols -> length c = length c') ->
  slice_of_structs cols = Ok (SSlice (map (fun vs => SStruct (map SVal vs)) (rows_of (VInt 0) cols))).
Proof.
  intros N H. unfold slice_of_structs. destruct (rev cols) as [|last r] eqn:R; [apply (f_equal (@length _)) in R; rewrite rev_length in R; destruct cols; [contradiction|discriminate]|].
  assert (IL : In last cols) by (apply in_rev; rewrite R; now left).
  assert (SL : shortest cols = length last).
  { destruct cols as [|c cols]; [contradiction|]. cbn [shortest]. rewrite <- (H c last) by (auto; now left).
    assert (G : forall l : list (list val), (forall c', In c' l -> length c' = length c) -> fold_right Nat.min (length c) (map (@length val) l) = length c).
    { induction l as [|y l IH]; intros G; cbn [map fold_right]; [reflexivity|]. rewrite IH by (intros; apply G; now right). rewrite (G y) by now left. apply Nat.min_id. }
    apply G. intros c' Hc'. symmetry. apply H; [now left|now right]. }
  rewrite (res_map_ok _ (fun i => SStruct (map SVal (map (fun c => nth i c (VInt 0)) cols)))).
  - cbn [rbind]. unfold rows_of. rewrite SL, !map_map. reflexivity.
  - intros i Hi. apply in_seq in Hi. rewrite (res_map_ok _ (fun c => SVal (nth i c (VInt 0)))).
    + cbn [rbind]. now rewrite map_map.
    + intros c Hc. rewrite (nth_error_nth' c (VInt 0)); [reflexivity|]. rewrite (H c last) by assumption. lia.
Qed.

Lemma nonempty_existsb {A} (cols : list (list A)) : existsb (fun c => match c with [] => true | _ => false end) cols = negb (forallb nonempty cols).
Proof. induction cols as [|c cols IH]; cbn [existsb forallb]; [reflexivity|]. rewrite IH. now destruct c. Qed.

Lemma sliced_yields : forall n cols, cols <> [] -> shortest cols = n ->
  Forall (fun r => forall c c', In c r -> In c' r -> length c = length c') (rows_of [] cols) ->
  yields (ItSliced cols) (map (fun r => SSlice (map (fun vs => SStruct (map SVal vs)) (rows_of (VInt 0) r))) (rows_of [] cols)).
Proof.
  induction n as [|n IH]; intros cols N S F; rewrite rows_of_step in * by assumption;
    destruct (forallb nonempty cols) eqn:E; cbn [map yields it_next]; rewrite nonempty_existsb, E; cbn [negb]; try reflexivity.
  - rewrite shortest_S in S by assumption. discriminate.
  - inversion F as [|r rs F1 F2]; subst. rewrite slice_rows; [|now destruct cols|exact F1]. cbn [rbind]. eexists. split; [reflexivity|].
    apply IH; [now destruct cols| |exact F2]. rewrite shortest_S in S by assumption. now injection S.
Qed.

Section Reader.
Variables (d : bytes) (sis : list sinfo) (t : tree branch).
Scheme delivers_ind2 := Minimality for delivers Sort Prop with fields_deliver_ind2 := Minimality for fields_deliver Sort Prop.

Definition branch_fields b g := fix go (l : list (fopts * rty)) : res (list rit) :=
  match l with
  | [] => Ok []
  | (f, w') :: r => i <-? from_branch_tree d sis t (field_bname b g f) w' ;; is <-? go r ;; Ok (i :: is)
  end.

Lemma plain_iter_ok {A} (read : branch -> res (list A)) b path l : bn_at b path -> column_of t read (dotted path) l -> plain_iter t read b = Ok l.
Proof. intros [F _] (br & E1 & E2). unfold plain_iter. now rewrite F, E1. Qed.

Lemma from_branch_delivers path w l : delivers d sis t path w l -> forall b, bn_at b path ->
  exists i, from_branch_tree d sis t b w = Ok i /\ yields i l /\ (length l <= it_size i)%nat.
Proof.
  intros H. apply (delivers_ind2 d sis t
    (fun path w l => forall b, bn_at b path -> exists i, from_branch_tree d sis t b w = Ok i /\ yields i l /\ (length l <= it_size i)%nat)
    (fun path g fs cols => forall b, bn_at b path -> exists is, branch_fields b g fs = Ok is /\ Forall2 yields is cols /\
       Forall2 (fun i l => (length l <= it_size i)%nat) is cols)); [| | | | |exact H]; clear path w l H.
  - intros path ty l C b B. cbn [from_branch_tree]. rewrite (plain_iter_ok _ b path l B C). cbn [rbind]. eexists. split; [reflexivity|].
    split; [apply yields_vals|]. cbn [it_size]. now rewrite map_length.
  - intros path g fs cols N _ IH b B. destruct (IH b B) as (is & E & Y & L). cbn [from_branch_tree]. fold (branch_fields b g). rewrite E. cbn [rbind].
    eexists. split; [reflexivity|].
    assert (NC : cols <> []).
    { intros ->. inversion Y; subst. destruct fs as [|[f w] fs]; [contradiction|]. cbn [branch_fields] in E.
      destruct (from_branch_tree d sis t (field_bname b g f) w); try discriminate E. cbn [rbind] in E. destruct (branch_fields b g fs); discriminate E. }
    split; [now apply (struct_yields (shortest cols))|]. rewrite map_length, rows_of_length. cbn [it_size].
    destruct L as [|i l is' cols' L1 L2]; [contradiction|]. etransitivity; [apply (shortest_le (l :: cols') l); now left|]. cbn [map list_sum fold_right]. lia.
  - intros path g fs cols N F R b B. cbn [from_branch_tree].
    assert (E : res_map (fun fw => plain_iter t (as_iter_slice d sis (snd fw)) (field_bname b g (fst fw))) fs = Ok cols).
    { clear R N. induction F as [|fw l fs cols C _ IH]; cbn [res_map]; [reflexivity|].
      rewrite (plain_iter_ok _ _ _ l (bn_at_field b path g (fst fw) B) C). cbn [rbind]. now rewrite IH. }
    rewrite E. cbn [rbind]. eexists. split; [reflexivity|].
    assert (NC : cols <> []) by (intros ->; inversion F; congruence).
    split; [now apply (sliced_yields (shortest cols))|]. rewrite map_length, rows_of_length. cbn [it_size].
    destruct cols as [|l cols']; [contradiction|]. etransitivity; [apply (shortest_le (l :: cols') l); now left|]. cbn [map list_sum fold_right]. lia.
  - intros path g b B. exists []. split; [reflexivity|]. split; constructor.
  - intros path g f w r l cols _ IH1 _ IH2 b B. destruct (IH1 _ (bn_at_field b path g f B)) as (i & E1 & Y1 & L1). destruct (IH2 b B) as (is & E2 & Y2 & L2).
    exists (i :: is). cbn [branch_fields]. rewrite E1. cbn [rbind]. fold (branch_fields b g). rewrite E2. split; [reflexivity|]. split; now constructor.
Qed.

Lemma from_tree_delivers w l : delivers d sis t [] w l -> from_tree d sis t w = Ok l.
Proof.
  intros H. destruct (from_branch_delivers [] w l H bn_new bn_at_new) as (i & E & Y & L). unfold from_tree. rewrite E. cbn [rbind].
  apply collect_yields; [exact Y|lia].
Qed.

Lemma needs_column path w n : needs path w n -> forall b, bn_at b path -> tree_branch t n = None -> forall i, from_branch_tree d sis t b w <> Ok i.
Proof.
  induction 1 as [path ty|path g fs f w n I _ IH|path g fs f ty I]; intros b B M i; cbn [from_branch_tree].
  - unfold plain_iter. rewrite (proj1 B), M. discriminate.
  - fold (branch_fields b g). specialize (IH _ (bn_at_field b path g f B) M).
    enough (X : forall is, branch_fields b g fs <> Ok is) by (destruct (branch_fields b g fs) as [is| | | |]; [now destruct (X is)|discriminate..]).
    induction fs as [|[f' w'] fs IHf]; [destruct I|]. intros is. cbn [branch_fields]. destruct I as [[= -> ->]|I].
    + destruct (from_branch_tree d sis t (field_bname b g f) w) as [j| | | |]; [now destruct (IH j)|discriminate..].
    + destruct (from_branch_tree d sis t (field_bname b g f') w') as [j| | | |]; try discriminate. cbn [rbind]. fold (branch_fields b g).
      destruct (branch_fields b g fs) as [is'| | | |]; [now destruct (IHf I is')|discriminate..].
  - enough (X : forall c, res_map (fun fw => plain_iter t (as_iter_slice d sis (snd fw)) (field_bname b g (fst fw))) fs <> Ok c)
      by (destruct (res_map _ fs) as [c| | | |]; [now destruct (X c)|discriminate..]).
    induction fs as [|fw fs IHf]; [destruct I|]. intros c. cbn [res_map]. destruct I as [->|I].
    + cbn [fst snd]. unfold plain_iter. rewrite (proj1 (bn_at_field b path g f B)), M. discriminate.
    + destruct (plain_iter t (as_iter_slice d sis (snd fw)) (field_bname b g (fst fw))) as [j| | | |]; try discriminate. cbn [rbind].
      destruct (res_map _ fs) as [c'| | | |]; [now destruct (IHf I c')|discriminate..].
Qed.
End Reader.

Lemma res_map_panic {A B} (g : A -> res B) (h : A -> B) l a : (forall x, In x l -> g x = Ok (h x) \/ g x = Panic) -> In a l -> g a = Panic -> res_map g l = Panic.
Proof.
  induction l as [|x l IH]; intros H I E; [destruct I|]. cbn [res_map]. destruct (H x (or_introl eq_refl)) as [X|X]; rewrite X; cbn [rbind]; [|reflexivity].
  destruct I as [->|I]; [congruence|]. rewrite IH; auto. intros y Hy. apply H. now right.
Qed.
Lemma uneven_slices cols c : cols <> [] -> In c cols -> (length c < length (last cols []))%nat -> slice_of_structs cols = Panic.
Proof.
  intros NE I L. unfold slice_of_structs. destruct (rev cols) as [|y l] eqn:E.
  { apply (f_equal (@rev _)) in E. rewrite rev_involutive in E. now subst cols. }
  assert (EL : last cols [] = y).
  { apply (f_equal (@rev _)) in E. rewrite rev_involutive in E. subst cols. cbn [rev]. apply last_last. }
  rewrite EL in L.
  rewrite (res_map_panic _ (fun i => SStruct (map (fun c => SVal (nth i c (VInt 0))) cols)) _ (length c)).
  - reflexivity.
  - intros i _.
    assert (G : forall cs, res_map (fun c : list val => match nth_error c i with Some v => Ok (SVal v) | None => Panic end) cs = Ok (map (fun c => SVal (nth i c (VInt 0))) cs) \/
        res_map (fun c : list val => match nth_error c i with Some v => Ok (SVal v) | None => Panic end) cs = Panic).
    { induction cs as [|k cs IH]; [now left|]. cbn [res_map map]. destruct (nth_error k i) as [v|] eqn:N; cbn [rbind]; [|now right].
      destruct IH as [-> | ->]; cbn [rbind]; [left|now right]. now rewrite (nth_error_nth _ _ _ N). }
    destruct (G cols) as [-> | ->]; cbn [rbind]; [now left|now right].
  - apply in_seq. lia.
  - rewrite (res_map_panic _ (fun k => SVal (nth (length c) k (VInt 0))) cols c); [reflexivity| |exact I|].
    + intros k _. destruct (nth_error k (length c)) as [v|] eqn:N; [left; now rewrite (nth_error_nth _ _ _ N)|now right].
    + now rewrite (proj2 (nth_error_None c (length c)) (le_n _)).
Qed.
