(** * [interpolate integrate] as a midpoint sum *)
From Coq Require Import String Ascii List Arith ZArith Bool Lia Reals Lra.
From Verif Require Import Prelude PreludeFacts NdArray Tools_Arr Calc_Model Calc_Spec Calc_Proofs Amount_Spec Amount_Proofs.
Import ListNotations.
Open Scope list_scope. Open Scope nat_scope.

Lemma set_nth_mid {A} (x y : A) pre t : set_nth (length pre) x (pre ++ y :: t) = pre ++ x :: t.
Proof. induction pre as [|a pre IH]; [reflexivity|]. cbn [length app set_nth]. now rewrite IH. Qed.

(** Replacing a run of entries. *)
Lemma fold_set {A} (h : nat -> A) l : forall pre t,
  fold_right (fun a s => set_nth a (h a) s) (pre ++ l ++ t) (seq (length pre) (length l))
  = pre ++ List.map h (seq (length pre) (length l)) ++ t.
Proof.
  induction l as [|x l IH]; intros pre t; [reflexivity|]. cbn [length seq fold_right List.map].
  specialize (IH (pre ++ [x]) t). rewrite app_length in IH. cbn [length] in IH. rewrite Nat.add_1_r in IH.
  rewrite <- !app_assoc in IH. cbn [app] in IH. cbn [app]. rewrite IH. apply set_nth_mid.
Qed.

Lemma map_const {A B} (b : B) (l : list A) : List.map (fun _ => b) l = repeat b (length l).
Proof. induction l; cbn; congruence. Qed.

Lemma collapse_all fine m : collapse_shape (seq 0 (length fine)) (fine ++ [m]) = repeat 1 (length fine) ++ [m].
Proof.
  unfold collapse_shape. pose proof (fold_set (fun _ => 1) fine [] [m]) as H. cbn [app length] in H. rewrite H, map_const, seq_length. reflexivity.
Qed.

Lemma collapse_grid_all mid (grid : list (list R)) :
  collapse_grid mid (seq 0 (length grid)) grid = List.map (fun a => [mid (nth a grid [])]) (seq 0 (length grid)).
Proof.
  unfold collapse_grid. pose proof (fold_set (fun a => [mid (nth a grid [])]) grid [] []) as H. cbn [app length] in H. rewrite !app_nil_r in H. exact H.
Qed.

(** Sums over all axes with equal widths. *)
Lemma total_equal grid sh (W : nat -> R) F c sizes : forall pre rest,
  length rest = length sizes ->
  (forall j, j < length sizes -> nth (length pre + j) sh 0 = nth j sizes 0) ->
  (forall j k, j < length sizes -> k < nth j sizes 0 -> width (nth (length pre + j) grid []) (nth j sizes 0) k = W (length pre + j)) ->
  total grid sh (seq (length pre) (length sizes)) F (pre ++ rest ++ [c])
  = (fold_right Rmult 1 (List.map W (seq (length pre) (length sizes))) * sum_over sizes (fun q => F (pre ++ q ++ [c])))%R.
Proof.
  induction sizes as [|n sizes IH]; intros pre rest Lr Hs Hw.
  - destruct rest; [|discriminate Lr]. cbn [seq length total List.map fold_right sum_over app]. ring.
  - destruct rest as [|r0 rest]; [discriminate Lr|]. cbn [length seq total List.map fold_right sum_over].
    pose proof (Hs 0 ltac:(cbn; lia)) as H0. cbn [nth] in H0. rewrite Nat.add_0_r in H0. rewrite H0.
    unfold rsum.
    rewrite (Amount_Proofs.rsum_ext _ (fun k => (W (length pre) * fold_right Rmult 1 (List.map W (seq (S (length pre)) (length sizes)))) * sum_over sizes (fun q => F (pre ++ (k :: q) ++ [c])))%R).
    2:{ intros k Hk. apply in_seq in Hk. cbn [Nat.add] in Hk. pose proof (Hw 0 k ltac:(cbn; lia) ltac:(cbn [nth]; lia)) as Hk0. cbn [nth] in Hk0. rewrite Nat.add_0_r in Hk0.
        rewrite Hk0, Rmult_assoc. f_equal. cbn [app]. rewrite set_nth_mid.
        specialize (IH (pre ++ [k]) rest). rewrite app_length in IH. cbn [length] in IH. rewrite Nat.add_1_r in IH.
        rewrite <- !app_assoc in IH. cbn [app] in IH. rewrite IH.
        - f_equal. apply Amount_Proofs.sum_over_ext. intros q _. f_equal. rewrite <- app_assoc. reflexivity.
        - cbn in Lr. lia.
        - intros j Hj. pose proof (Hs (S j) ltac:(cbn; lia)) as H1. cbn [nth] in H1. rewrite <- H1. f_equal. lia.
        - intros j k' Hj Hk'. pose proof (Hw (S j) k' ltac:(cbn; lia) Hk') as H1. cbn [nth] in H1. rewrite Nat.add_succ_r in H1. exact H1. }
    rewrite Amount_Proofs.rsum_scal. reflexivity.
Qed.

Lemma holds_line n g f : holds [n] g f -> flat g = List.map (fun i => f [i]) (seq 0 n).
Proof.
  intros (W & S & V). unfold wf in W. rewrite S in W. unfold prod in W. cbn [fold_right] in W. rewrite Nat.mul_1_r in W.
  apply nth_error_ext. intros i. rewrite nth_error_map, nth_error_seq.
  destruct (Nat.ltb_spec i n) as [L|L].
  - cbn [option_map Nat.add]. rewrite <- (V [i]) by (repeat constructor; exact L). unfold get. rewrite S. cbn [ravel].
    destruct (Nat.ltb_spec i n); [|lia]. unfold prod. cbn [option_map fold_right]. now rewrite Nat.mul_1_r, Nat.add_0_r.
  - cbn [option_map]. apply nth_error_None. lia.
Qed.

Lemma sum_line a b n : (2 * rsum (List.map (fun i => a + b * INR i) (seq 0 n)) = INR n * (2 * a + b * (INR n - 1)))%R.
Proof.
  unfold rsum. induction n as [|n IH]; [cbn; ring|]. rewrite seq_S, map_app, Amount_Proofs.rsum_app, Rmult_plus_distr_l, IH. cbn [List.map fold_right Nat.add]. rewrite S_INR. ring.
Qed.
