(** UTF-8 validation as performed by [std::str::from_utf8]. *)
From Verif Require Export Bytes.

Definition in_rng (lo hi b : Z) : bool := (lo <=? b) && (b <=? hi).
Definition cont (b : Z) : bool := in_rng 128 191 b.

(** The table of well-formed UTF-8 byte sequences (Unicode standard, table 3-7),
    which is what [core::str::from_utf8] accepts. *)
Fixpoint utf8_valid (l : bytes) : bool :=
  match l with
  | [] => true
  | a :: l1 =>
    if in_rng 0 127 a then utf8_valid l1
    else match l1 with
    | [] => false
    | b :: l2 =>
      if in_rng 194 223 a then cont b && utf8_valid l2
      else match l2 with
      | [] => false
      | c :: l3 =>
        if (in_rng 224 224 a && in_rng 160 191 b)
           || (in_rng 225 236 a && cont b)
           || (in_rng 237 237 a && in_rng 128 159 b)
           || (in_rng 238 239 a && cont b)
        then cont c && utf8_valid l3
        else match l3 with
        | [] => false
        | d :: l4 =>
          if (in_rng 240 240 a && in_rng 144 191 b)
             || (in_rng 241 243 a && cont b)
             || (in_rng 244 244 a && in_rng 128 143 b)
          then cont c && cont d && utf8_valid l4
          else false
        end
      end
    end
  end.

Definition is_ascii (l : bytes) : bool := forallb (in_rng 0 127) l.

Lemma ascii_utf8 l : is_ascii l = true -> utf8_valid l = true.
Proof.
  induction l as [|a l IH]; cbn; auto.
  intros H. apply andb_true_iff in H as [H1 H2]. rewrite H1. now apply IH.
Qed.

Lemma utf8_app a b : utf8_valid a = true -> utf8_valid (a ++ b) = utf8_valid b.
Proof.
  remember (length a) as n eqn:Hn. revert a Hn.
  induction n as [n IH] using lt_wf_ind. intros a Hn.
  destruct a as [|x a1]; [reflexivity|].
  cbn [app]. cbn [utf8_valid]. intros H.
  destruct (in_rng 0 127 x).
  { apply (IH (length a1)); auto. subst; cbn; lia. }
  destruct a1 as [|y a2]; [discriminate|]. cbn [app].
  destruct (in_rng 194 223 x).
  { apply andb_true_iff in H as [-> H]. cbn [andb]. apply (IH (length a2)); auto. subst; cbn; lia. }
  destruct a2 as [|z a3]; [discriminate|]. cbn [app].
  destruct (_ || _ || _ || _).
  { apply andb_true_iff in H as [-> H]. cbn [andb]. apply (IH (length a3)); auto. subst; cbn; lia. }
  destruct a3 as [|u a4]; [discriminate|]. cbn [app].
  destruct (_ || _ || _); [|discriminate].
  apply andb_true_iff in H as [H0 H]. rewrite H0. cbn [andb].
  apply (IH (length a4)); auto. subst; cbn; lia.
Qed.

Lemma utf8_app_true a b : utf8_valid a = true -> utf8_valid b = true -> utf8_valid (a ++ b) = true.
Proof. intros Ha Hb. now rewrite utf8_app. Qed.

Example utf8_ex : utf8_valid (bs "h" ++ [195; 169]) = true /\ utf8_valid [195] = false
  /\ utf8_valid [237; 160; 128] = false.
Proof. repeat split. Qed.
