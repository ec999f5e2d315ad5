(** A concrete session, showing that the hypotheses of the theorems about files and
    trees are met: two trees, four columns of different kinds and lengths, one
    callback. *)
From Verif Require Import Base Values Key File Column TreeWrite TreeSession StreamerDb Spec CodecFacts SpecTree.

Definition path0 : bytes := bs "a.root".
Definition tables0 : list table :=
  [Table (bs "events")
     [AddColumn (Column (bs "x") (TPrim I32) [VInt 1; VInt (-2); VInt 3]);
      AddColumn (Column (bs "v") (TVec (TPrim F64)) [VList [VInt 7; VInt 9]; VList []]);
      AddCallback;
      AddColumn (Column (bs "s") TString [VStr (bs "abc")]);
      AddColumn (Column (bs "a") (TArr 2 (TPrim U8)) [VList [VInt 5; VInt 6]])];
   Table (bs "t2") []; Table (bs "events") [AddColumn (Column (bs "y") (TPrim PBool) [VInt 1])]].
Definition sample_file : file := Eval vm_compute in fst (session real_db path0 (map calls tables0)).
Definition heard0 : list (list (nat * event)) := map heard tables0.

Lemma sample_text l : str_ok l -> text l.
Proof. apply text_str_ok. Qed.
Ltac sample :=
  match goal with
  | |- text _ => apply sample_text; split; [vm_compute; reflexivity|vm_compute; reflexivity]
  | |- _ /\ _ => split; sample
  | |- Forall _ (_ :: _) => constructor; [sample|sample]
  | |- Forall _ [] => constructor
  | |- Forall _ _ => progress (cbn [columns tb_setup tb_name c_values]); sample
  | |- column_ok _ _ => red; cbn [c_type c_name c_values]; sample
  | |- table_ok _ => red; cbn [tb_name tb_setup]; sample
  | |- column_type _ => cbn; sample
  | |- has_type _ _ => constructor; sample
  | |- scalar _ _ => vm_compute; repeat split; try discriminate; auto
  | |- _ <> _ => discriminate
  | |- True => exact I
  | |- _ => first [reflexivity | vm_compute; reflexivity | vm_compute; discriminate | cbn; lia]
  end.

Lemma sample_ran : session real_db path0 (map calls tables0) = (sample_file, Ok heard0).
Proof. vm_cast_no_check (eq_refl (sample_file, @Ok (list (list (nat * event))) heard0)). Qed.

Lemma sample_tables : Forall table_ok tables0.
Proof. unfold tables0. sample. Qed.

Lemma sample_finished : finished path0 tables0 heard0 sample_file.
Proof.
  split; [split; sample|split; [apply sample_tables|split; [apply few_short; sample|split]]].
  - exact sample_ran.
  - vm_compute. discriminate.
Qed.
