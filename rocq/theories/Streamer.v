(** Streamer elements: rdict/mod.rs, rdict/streamers/streamer_types.rs. *)
From Verif Require Export Obj.

(** rdict/mod.rs 484-507 [StreamerElement]; [_offset], [xmin], [xmax], [factor]
    are not modelled: they are never written and are read as zeros.  [etype] is
    the enum seen as its [i32] ([rmeta::Enum] is a bijection with [i32]). *)
Record element := mkEl {
  e_named : named; e_etype : Z; e_esize : Z; e_arrlen : Z; e_arrdim : Z;
  e_maxidx : list Z; e_ename : bytes }.

(** rdict/mod.rs 24-34 *)
Inductive streamer :=
| SBase (e : element) (vbase : Z)
| SString (e : element)
| SBasicType (e : element)
| SBasicPointer (e : element) (cvers : Z) (cname ccls : bytes)
| SObject (e : element)
| SObjectPointer (e : element)
| SObjectAny (e : element)
| SStl (e : element) (vtype ctype : Z)
| SStlString (e : element) (vtype ctype : Z).

(** [element] of the structures in rdict/streamers/streamer_types.rs *)
Definition s_elem (s : streamer) : element :=
  match s with
  | SBase e _ | SString e | SBasicType e | SBasicPointer e _ _ _ | SObject e
  | SObjectPointer e | SObjectAny e | SStl e _ _ | SStlString e _ _ => e
  end.

(** streamer_types.rs 584-592 *)
Definition s_class (s : streamer) : bytes :=
  match s with
  | SBase _ _ => bs "TStreamerBase"
  | SString _ => bs "TStreamerString"
  | SBasicType _ => bs "TStreamerBasicType"
  | SBasicPointer _ _ _ _ => bs "TStreamerBasicPointer"
  | SObject _ => bs "TStreamerObject"
  | SObjectPointer _ => bs "TStreamerObjectPointer"
  | SObjectAny _ => bs "TStreamerObjectAny"
  | SStl _ _ _ => bs "TStreamerSTL"
  | SStlString _ _ _ => bs "TStreamerSTLstring"
  end.

(** rdict/mod.rs 222-232 [StreamerInfo]; the process-wide [id] is not kept, see
    [sinfo_marshal] *)
Record sinfo := mkSI { si_named : named; si_chksum : Z; si_clsver : Z; si_elems : list streamer }.
Definition si_name (s : sinfo) : bytes := n_name (si_named s).

(** Position of the last byte with a property *)
Fixpoint find_last (p : Z -> bool) (i : Z) (s : bytes) : option Z :=
  match s with
  | [] => None
  | c :: r => match find_last p (i + 1) r with
              | Some k => Some k
              | None => if p c then Some i else None
              end
  end.
(** [str::rfind] (rdict/streamers/streamer_types.rs 19, 31, 41) *)
Definition rfind (c : Z) (s : bytes) : option Z := find_last (Z.eqb c) 0 s.

(** streamer_types.rs 12-48 [get_range]: does the call return (with zeros)? *)
Definition get_range_returns (title : bytes) : bool :=
  match rfind 91 title with
  | None => true
  | Some b =>
      if 0 <? b then false
      else match rfind 93 title with
           | None => true
           | Some e => match rfind 44 (zsub title (b + 1) (e - (b + 1))) with
                       | None => true
                       | Some _ => false
                       end
           end
  end.

(** rdict/mod.rs 560-618 *)
Definition elem_unmarshal : R element :=
  h <- read_header ;;
  ensure_max (h_vers h) 4 ;;;
  nm <- named_unmarshal ;;
  etype <- read_i32 ;;
  esize <- read_i32 ;;
  arrlen <- read_i32 ;;
  arrdim <- read_i32 ;;
  (if h_vers h =? 1 then panic else ret tt) ;;;
  maxidx <- repeatM 5 read_i32 ;;
  ename <- read_string ;;
  let etype' := if (etype =? 11) && (beqb ename (bs "Bool_t") || beqb ename (bs "bool"))
                then 18 else etype in
  (if h_vers h <? 3 then ret tt
   else if h_vers h =? 3 then read_f64 ;;; panic
   else if get_range_returns (n_title nm) then ret tt else panic) ;;;
  ret (mkEl nm etype' esize arrlen arrdim maxidx ename).

(** rdict/mod.rs 625-629: the type number that is written *)
Definition elem_wtype (z : Z) : Z := if (z =? 67) || (z =? 66) then 0 else z.

(** rdict/mod.rs 620-707 *)
Definition elem_marshal (e : element) : W Z :=
  len_minus_1 ;;;
  with_header 4
    (named_marshal (e_named e) ;;;
     write_i32 (elem_wtype (e_etype e)) ;;;
     write_i32 (e_esize e) ;;;
     write_i32 (e_arrlen e) ;;;
     write_i32 (e_arrdim e) ;;;
     iterM write_i32 (e_maxidx e) ;;;
     write_string (e_ename e)).

(** Elements the format can represent. *)
Definition elem_ok (e : element) : Prop :=
  named_ok (e_named e) /\ get_range_returns (n_title (e_named e)) = true /\
  is_i32 (e_etype e) /\ is_i32 (e_esize e) /\ is_i32 (e_arrlen e) /\ is_i32 (e_arrdim e) /\
  length (e_maxidx e) = 5%nat /\ Forall is_i32 (e_maxidx e) /\ str_ok (e_ename e).

Definition elem_seen (e : element) : element :=
  let t := elem_wtype (e_etype e) in
  mkEl (named_seen (e_named e))
    (if (t =? 11) && (beqb (e_ename e) (bs "Bool_t") || beqb (e_ename e) (bs "bool")) then 18 else t)
    (e_esize e) (e_arrlen e) (e_arrdim e) (e_maxidx e) (e_ename e).

Lemma elem_sim e : elem_ok e -> sim [] [] (elem_marshal e) elem_unmarshal (elem_seen e).
Proof.
  destruct e as [nm ty sz al ad mx en]. intros (Hn & Hg & Ht & Hs & Hal & Had & Hm & Hmx & He).
  cbn [e_named e_etype e_esize e_arrlen e_arrdim e_maxidx e_ename] in *.
  unfold elem_marshal, elem_unmarshal, elem_seen.
  cbn [e_named e_etype e_esize e_arrlen e_arrdim e_maxidx e_ename].
  apply sim_lm1. apply sim0_sim, sim_header; [rt_side|]. intros hp hl. cbn [h_vers].
  apply (sim_gate _ _ _ _ _ _ tt); [reflexivity|].
  eapply sim_seq0; [now apply named_sim|]. cbv beta.
  assert (is_i32 (elem_wtype ty)).
  { unfold elem_wtype. destruct ((ty =? 67) || (ty =? 66)); [red; lia|exact Ht]. }
  sim_step. sim_step. sim_step. sim_step. change (4 =? 1) with false. cbv iota.
  apply (sim_gate _ _ _ _ _ _ tt); [reflexivity|].
  eapply sim_seq_rt.
  { rewrite <- Hm. eapply (rt_repeat write_i32 read_i32 4). intros z Hz. apply rt_i32.
    rewrite Forall_forall in Hmx. auto. }
  cbv beta zeta. eapply sim_rt. eapply rt_last; [now apply rt_string|].
  cbn [named_seen n_title]. change (4 <? 3) with false. change (4 =? 3) with false. cbv iota.
  rewrite Hg. apply (rt_gate _ _ _ _ tt); [reflexivity|]. apply rt_ret.
Qed.

(** ** The kinds of elements *)

(** rmeta/consts.rs [EnumNamed] values *)
Definition enum_named (z : Z) : bool :=
  ((0 <=? z) && (z <=? 20)) || ((61 <=? z) && (z <=? 71)) || ((1000 <=? z) && (z <=? 1002)) ||
  existsb (Z.eqb z) [40; 56; 100; 120; 140; 200; 220; 240; 300; 365; 500; 501; 600; 99997; 99999].

(** rmeta/consts.rs [ESTLType] values *)
Definition stl_named (z : Z) : bool := ((0 <=? z) && (z <=? 14)) || (z =? 300) || (z =? 365).

(** streamer_types.rs 188-216: size of a basic type *)
Definition basic_size (z : Z) : option Z :=
  if existsb (Z.eqb z) [18; 11; 1] then Some 1
  else if existsb (Z.eqb z) [2; 12] then Some 2
  else if existsb (Z.eqb z) [15; 13; 3; 6] then Some 4
  else if existsb (Z.eqb z) [14; 17; 4; 16] then Some 8
  else if existsb (Z.eqb z) [5; 19] then Some 4
  else if existsb (Z.eqb z) [8; 9] then Some 8
  else if z =? 7 then Some 8
  else None.

(** Assignment to [esize] *)
Definition el_set_size (e : element) (n : Z) : element :=
  mkEl (e_named e) (e_etype e) n (e_arrlen e) (e_arrdim e) (e_maxidx e) (e_ename e).

(** streamer_types.rs 178-220: the size is recomputed from the type; the product
    panics when it does not fit in 32 bits (overflow check). *)
Definition basic_fix {S} (e : element) : M S element :=
  let t := if (20 <? e_etype e) && (e_etype e <? 40) then e_etype e - 20 else e_etype e in
  if negb (enum_named t) then fail EMisc
  else match basic_size t with
       | None => ret e
       | Some n =>
           if 0 <? e_arrlen e
           then if n * e_arrlen e <? 2147483648 then ret (el_set_size e (n * e_arrlen e)) else panic
           else ret (el_set_size e n)
       end.

(** [str::starts_with] (streamer_types.rs 541-548) *)
Definition starts_with (s p : bytes) : bool := beqb (firstn (length p) s) p.

(** streamer_types.rs 539-554 *)
Definition stl_fix (name : bytes) (vtype : Z) : Z :=
  if (vtype =? 5) || (vtype =? 6) then
    let v1 := if starts_with name (bs "std::set") || starts_with name (bs "set") then 6 else vtype in
    if starts_with name (bs "std::multimap") || starts_with name (bs "multimap") then 5 else v1
  else vtype.

(** streamer_types.rs 528-559 *)
Definition stl_unmarshal : R (element * Z * Z) :=
  h <- read_header ;;
  ensure_max (h_vers h) 3 ;;;
  e <- elem_unmarshal ;;
  v <- read_i32 ;;
  (if stl_named v then ret tt else panic) ;;;
  c <- read_i32 ;;
  ret (e, stl_fix (n_name (e_named e)) v, c).

(** streamer_types.rs 126-135, 275-284, 318-327, 361-370: [unmarshal] of a header and an element *)
Definition simple_unmarshal (mx : Z) (k : element -> R streamer) : R streamer :=
  h <- read_header ;;
  ensure_max (h_vers h) mx ;;;
  e <- elem_unmarshal ;;
  k e.

(** The factory function of a streamer class followed by its [unmarshal]:
    streamer_types.rs 62-84 (Base), 126-137 (String), 170-228 (BasicType),
    275-305 (Object), 318-348 (ObjectPointer), 361-400 (ObjectAny), 456-471
    (BasicPointer), 528-559 (STL), 572-582 (STLstring). *)
Definition streamer_unmarshal (class : bytes) : option (R streamer) :=
  if beqb class (bs "TStreamerBase") then
    Some (h <- read_header ;; ensure_max (h_vers h) 3 ;;;
          e <- elem_unmarshal ;;
          v <- (if 2 <? h_vers h then read_i32 else ret 0) ;;
          ret (SBase e v))
  else if beqb class (bs "TStreamerString") then Some (simple_unmarshal 2 (fun e => ret (SString e)))
  else if beqb class (bs "TStreamerBasicType") then
    Some (simple_unmarshal 2 (fun e => e' <- basic_fix e ;; ret (SBasicType e')))
  else if beqb class (bs "TStreamerObject") then Some (simple_unmarshal 2 (fun e => ret (SObject e)))
  else if beqb class (bs "TStreamerObjectPointer") then Some (simple_unmarshal 2 (fun e => ret (SObjectPointer e)))
  else if beqb class (bs "TStreamerObjectAny") then Some (simple_unmarshal 2 (fun e => ret (SObjectAny e)))
  else if beqb class (bs "TStreamerBasicPointer") then
    Some (simple_unmarshal 2 (fun e =>
            v <- read_i32 ;; n <- read_string ;; c <- read_string ;; ret (SBasicPointer e v n c)))
  else if beqb class (bs "TStreamerSTL") then
    Some (' (e, v, c) <- stl_unmarshal ;; ret (SStl e v c))
  else if beqb class (bs "TStreamerSTLstring") then
    Some (h <- read_header ;; ensure_max (h_vers h) 2 ;;;
          ' (e, v, c) <- stl_unmarshal ;; ret (SStlString e v c))
  else None.

(** streamer_types.rs 92-113, 139-157, 230-262, 285-305, 328-348, 371-400,
    419-448, 482-520, 566-570 *)
Definition streamer_marshal (s : streamer) : W Z :=
  match s with
  | SBase e v => len_minus_1 ;;; with_header 3 (elem_marshal e ;;; write_i32 v)
  | SString e | SBasicType e | SObject e | SObjectPointer e | SObjectAny e =>
      len_minus_1 ;;; with_header 2 (elem_marshal e)
  | SBasicPointer e v n c =>
      len_minus_1 ;;; with_header 2 (elem_marshal e ;;; write_i32 v ;;; write_string n ;;; write_string c)
  | SStl e v c => len_minus_1 ;;; with_header 3 (elem_marshal e ;;; write_i32 v ;;; write_i32 c)
  | SStlString _ _ _ => panic
  end.

(** What the reader makes of an element. *)
Definition basic_seen (e : element) : element :=
  let t := if (20 <? e_etype e) && (e_etype e <? 40) then e_etype e - 20 else e_etype e in
  match basic_size t with
  | None => e
  | Some n => el_set_size e (if 0 <? e_arrlen e then n * e_arrlen e else n)
  end.

Definition basic_ok (e : element) : Prop :=
  let t := if (20 <? e_etype e) && (e_etype e <? 40) then e_etype e - 20 else e_etype e in
  enum_named t = true /\ 8 * e_arrlen e < 2147483648.

Definition streamer_ok (s : streamer) : Prop :=
  elem_ok (s_elem s) /\
  match s with
  | SBase _ v => is_i32 v
  | SBasicType e => basic_ok (elem_seen e)
  | SBasicPointer _ v n c => is_i32 v /\ str_ok n /\ str_ok c
  | SStl e v c => is_i32 c /\ stl_named v = true
  | SStlString _ _ _ => False
  | _ => True
  end.

(** What is read back: [elem_seen] on every element, a recomputed size for basic
    types and [stl_fix] on containers. *)
Definition streamer_seen (s : streamer) : streamer :=
  match s with
  | SBase e v => SBase (elem_seen e) v
  | SString e => SString (elem_seen e)
  | SBasicType e => SBasicType (basic_seen (elem_seen e))
  | SBasicPointer e v n c => SBasicPointer (elem_seen e) v n c
  | SObject e => SObject (elem_seen e)
  | SObjectPointer e => SObjectPointer (elem_seen e)
  | SObjectAny e => SObjectAny (elem_seen e)
  | SStl e v c => SStl (elem_seen e) (stl_fix (n_name (e_named e)) v) c
  | SStlString e v c => SStlString e v c
  end.

Lemma basic_fix_ok {S} e : basic_ok e -> @basic_fix S e = ret (basic_seen e).
Proof.
  unfold basic_ok, basic_fix, basic_seen.
  set (t := if (20 <? e_etype e) && (e_etype e <? 40) then e_etype e - 20 else e_etype e).
  intros (-> & Hb). cbn [negb]. destruct (basic_size t) as [n|] eqn:E; [|reflexivity].
  assert (n <= 8).
  { unfold basic_size in E. repeat match type of E with
      | (if ?b then _ else _) = _ => destruct b; [injection E; lia|] end. discriminate. }
  destruct (0 <? e_arrlen e) eqn:F; [|reflexivity].
  apply Z.ltb_lt in F. destruct (Z.ltb_spec (n * e_arrlen e) 2147483648); [reflexivity|nia].
Qed.

Lemma stl_named_i32 v : stl_named v = true -> is_i32 v.
Proof.
  unfold stl_named, is_i32. intros H.
  apply orb_true_iff in H as [H|H]; [apply orb_true_iff in H as [H|H]|]; lia.
Qed.

Lemma streamer_sim s :
  streamer_ok s ->
  exists rm, streamer_unmarshal (s_class s) = Some rm /\
    sim [] [] (streamer_marshal s) rm (streamer_seen s).
Proof.
  intros (He & Hs).
  assert (simple : forall e mx k u, elem_ok e -> is_i16 mx ->
    k (elem_seen e) = ret u ->
    sim [] [] (len_minus_1 ;;; with_header mx (elem_marshal e)) (simple_unmarshal mx k) u).
  { intros e mx k u Hk Hx Hu. apply sim_lm1. apply sim0_sim, sim_header; [exact Hx|].
    intros hp hl. cbn [h_vers]. apply (sim_gate _ _ _ _ _ _ tt).
    { unfold ensure_max. now rewrite Z.ltb_irrefl. }
    eapply sim_last; [apply elem_sim; exact Hk|exact Hu]. }
  destruct s; cbn [s_elem s_class streamer_marshal streamer_seen] in *; eexists; (split; [reflexivity|]).
  - apply sim_lm1. apply sim0_sim, sim_header; [rt_side|]. intros hp hl. cbn [h_vers].
    apply (sim_gate _ _ _ _ _ _ tt); [reflexivity|].
    eapply sim_seq0; [now apply elem_sim|]. cbv beta. change (2 <? 3) with true. cbv iota.
    eapply sim_rt. apply (rt_end _ _ _ (fun x => SBase (elem_seen e) x)). now apply rt_i32.
  - apply simple; auto. rt_side.
  - apply simple; auto; [rt_side|]. rewrite basic_fix_ok by exact Hs. reflexivity.
  - destruct Hs as (Hv & Hn & Hc). apply sim_lm1. apply sim0_sim, sim_header; [rt_side|]. intros hp hl. cbn [h_vers].
    apply (sim_gate _ _ _ _ _ _ tt); [reflexivity|].
    eapply sim_seq0; [now apply elem_sim|]. cbv beta.
    sim_step. sim_step. eapply sim_rt. apply (rt_end _ _ _ (fun x => SBasicPointer (elem_seen e) cvers cname x)).
    now apply rt_string.
  - apply simple; auto. rt_side.
  - apply simple; auto. rt_side.
  - apply simple; auto. rt_side.
  - destruct Hs as (Hc & Hv). pose proof (stl_named_i32 _ Hv).
    apply sim_last with (v := (elem_seen e, stl_fix (n_name (e_named e)) vtype, ctype)); [|reflexivity].
    apply sim_lm1. apply sim0_sim, sim_header; [rt_side|]. intros hp hl. cbn [h_vers].
    apply (sim_gate _ _ _ _ _ _ tt); [reflexivity|].
    eapply sim_seq0; [now apply elem_sim|]. cbv beta. sim_step. rewrite Hv.
    apply (sim_gate _ _ _ _ _ _ tt); [reflexivity|].
    eapply sim_rt. apply (rt_end _ _ _ (fun x => (elem_seen e, stl_fix (n_name (e_named e)) vtype, x))).
    now apply rt_i32.
  - destruct Hs.
Qed.
