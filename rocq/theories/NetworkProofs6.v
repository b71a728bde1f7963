(** The report on the numbers of parameters; an example network. *)
From Coq Require Import List String Ascii Arith ZArith QArith Qcanon Lia Bool.
From Verif Require Import Base BaseFacts Tensor TensorFacts BlockModel BlockSpec NetworkModel NetworkSpec.
Import ListNotations.
Open Scope string_scope.
Open Scope list_scope.
Open Scope nat_scope.

Lemma find_get (t : list (string * nat)) k : pd_get k t = option_map snd (find (fun q => String.eqb (fst q) k) t).
Proof.
  unfold pd_get. induction t as [|[k' v] t IH]; [reflexivity|]. cbn [sd_get find fst]. rewrite (String.eqb_sym k' k).
  destruct (String.eqb k k'); [reflexivity|exact IH].
Qed.

Lemma report_from named target : forall p f t,
  fold_left (fun acc p =>
    let '(passed, failed, total) := acc in
    match pd_get (fst p) target with
    | Some expected => if expected =? snd p then (S passed, failed, total + snd p) else (passed, S failed, total + snd p)
    | None => (passed, S failed, total + snd p)
    end) named (p, f, t)
  = (p + List.length (filter (as_expected target) named),
     f + List.length (filter (fun q => negb (as_expected target q)) named), t + list_sum (map snd named)).
Proof.
  induction named as [|[k n] named IH]; intros p f t.
  - cbn. rewrite !Nat.add_0_r. reflexivity.
  - cbn [fold_left fst snd filter map]. rewrite find_get.
    assert (EA : as_expected target (k, n) = match find (fun q => String.eqb (fst q) k) target with Some q => snd q =? n | None => false end) by reflexivity.
    rewrite EA. clear EA.
    destruct (find (fun q => (fst q =? k)%string) target) as [q|]; cbn [option_map].
    + destruct (snd q =? n); cbn [negb]; rewrite IH; cbn [List.length]; change (list_sum (n :: map snd named)) with (n + list_sum (map snd named));
        (apply f_equal2; [apply f_equal2|]; lia).
    + rewrite IH. cbn [List.length negb]. change (list_sum (n :: map snd named)) with (n + list_sum (map snd named)).
      apply f_equal2; [apply f_equal2|]; lia.
Qed.

Lemma report_counts named target : count_print_and_compare_parameters named target =
  (List.length (filter (as_expected target) named),
   List.length (filter (fun q => negb (as_expected target q)) named), list_sum (map snd named)).
Proof. unfold count_print_and_compare_parameters. rewrite report_from. reflexivity. Qed.

Lemma filter_all {X} (f : X -> bool) l : Forall (fun x => f x = true) l ->
  filter f l = l /\ filter (fun x => negb (f x)) l = [].
Proof.
  induction 1 as [|x l H F [I1 I2]]; [auto|]. cbn [filter]. rewrite H. cbn [negb]. rewrite I1, I2. auto.
Qed.

Lemma report_no_failures named target passed total :
  count_print_and_compare_parameters named target = (passed, 0, total) <->
  (forall k n, In (k, n) named -> as_expected target (k, n) = true) /\ passed = List.length named /\ total = list_sum (map snd named).
Proof.
  rewrite report_counts. split.
  - intro E. injection E as E1 E2 E3.
    assert (F : Forall (fun p => as_expected target p = true) named).
    { apply Forall_forall. intros p Hp. destruct (as_expected target p) eqn:EA; auto.
      assert (In p (filter (fun q => negb (as_expected target q)) named)) as X by (apply filter_In; rewrite EA; auto).
      destruct (filter (fun q => negb (as_expected target q)) named); [destruct X|discriminate]. }
    destruct (filter_all _ _ F) as [F1 F2]. rewrite F1 in E1. repeat split; auto.
    intros k n Hn. rewrite Forall_forall in F. apply F. exact Hn.
  - intros (F & -> & ->).
    assert (FF : Forall (fun p => as_expected target p = true) named) by (apply Forall_forall; intros [k n] H; apply F; exact H).
    destruct (filter_all _ _ FF) as [-> ->]. reflexivity.
Qed.

Lemma script_expectations classes N s l0 l1 :
  count_print_and_compare_parameters (expected_network 1 classes N s l0 [l1])
    (expected_parameters (channels l0) (channels l1) (height l0) (width l0) (height l1) (width l1) N s classes)
  = (List.length (expected_network 1 classes N s l0 [l1]), 0, list_sum (map snd (expected_network 1 classes N s l0 [l1]))).
Proof.
  rewrite report_no_failures. split; [|auto].
  assert (F : Forall (fun p => as_expected (expected_parameters (channels l0) (channels l1) (height l0) (width l0) (height l1) (width l1) N s classes) p = true)
                (expected_network 1 classes N s l0 [l1])).
  2:{ intros k n Hn. rewrite Forall_forall in F. apply F. exact Hn. }
  set (c0 := channels l0). set (c1 := channels l1).
  unfold expected_network, four. cbn [map later_layers last app]. fold c0 c1.
  unfold first_of_layer. change (digits 0) with "0". change (digits 1) with "1". cbn [String.append].
  unfold four, first_of_layer. change (digits 1) with "1". cbn [map String.append].
  destruct ((height l1 =? height l0 / s) && (width l1 =? width l0 / s)); cbn [app];
    repeat (constructor; [unfold as_expected, expected_parameters; cbn [find fst snd String.eqb Ascii.eqb Bool.eqb];
                          apply Nat.eqb_eq; lia|]); constructor.
Qed.

(** ** An example *)
Definition example_stem (x : tensor nat) : result (tensor nat) :=
  match tshape x with
  | [B; _; H; W] => Ok (mkT [B; 2; H; W] (repeat 1 (prod [B; 2; H; W])))
  | _ => Raise RuntimeError
  end.

Definition example_head (o : @output nat) : result (tensor nat) :=
  match o with RTensor t => Ok t | _ => Raise TypeError end.

Lemma constant_convolves {A} : convolves (fun _ : nat => @constant_solution A).
Proof.
  intros c b x0 ts ps _ _ _ _ _ _. eexists. split; [reflexivity|]. split; [reflexivity|].
  unfold twf. cbn [tdata tshape]. induction ts as [|t ts IH]; [reflexivity|].
  cbn [List.length repeat List.concat]. rewrite app_length, IH. cbn. lia.
Qed.

Lemma example_accepts B H W depth cL s x : twf x -> tshape x = [B; 1; H; W] -> 0 < H / s ^ depth -> 0 < W / s ^ depth ->
  acceptable example_stem example_head s 1 2 cL depth x.
Proof.
  intros Wx Sx QH QW. exists B, H, W. split; auto. split; auto. split; [|split; [|auto]].
  - intros y Wy Sy. unfold example_stem. rewrite Sy. eexists. split; [reflexivity|]. split; [|reflexivity].
    unfold twf. cbn [tdata tshape]. apply repeat_length.
  - intros y h w _ _ _ _. eexists. reflexivity.
Qed.
