(** * Lemmas for C87: line-outs across blocks, with the specification of the blocks. *)
From Coq Require Import String Ascii List Arith ZArith QArith Qabs Bool Sorted Permutation Lia Lqa.
From Verif Require Import Prelude PreludeFacts NdArray GData_Model Select_Model Select_Spec Select_Proofs
  DataSpace_Model DataSpace_Spec DataSpace_Proofs DataSpace_Proofs2 DataSpace_Proofs3 Sort
  Multi_Model Multi_Proofs Multi_Props2.
Import ListNotations.
Open Scope list_scope.

(** ** Specification *)

(** A block: cell edges [X k] along the axes, [N k] cells, from [lo k] to
    [hi k], values [V]. *)
Record is_block {A} (d : gdata A) (X : nat -> list Q) (V : nda A) (N : nat -> nat) (nc : nat)
    (lo hi : nat -> Q) : Prop := {
  ib_data : rect_data d [X 0%nat; X 1%nat] V [N 0%nat; N 1%nat] nc;
  ib_edges : forall k, (k < 2)%nat -> edges_of (N k) (X k) /\ increasing (X k) /\ (0 < N k)%nat /\
      nth_error (X k) 0 = Some (lo k) /\ nth_error (X k) (N k) = Some (hi k);
  ib_bounds : exists l0 l1 u0 u1, get_bounds d = Ok (Some ([l0; l1], [u0; u1])) /\
      l0 == lo 0%nat /\ l1 == lo 1%nat /\ u0 == hi 0%nat /\ u1 == hi 1%nat
}.

(** The blocks [c :: cs] lie one above the other along [ax], and nothing lies
    above the last one. *)
Fixpoint stacked (lo hi : ref -> nat -> Q) (ax : nat) (L : list ref) (c : ref) (cs : list ref) : Prop :=
  match cs with
  | [] => forall s, In s L -> ~ above 2 lo hi ax c s
  | c' :: cs' => In c' L /\ above 2 lo hi ax c c' /\ stacked lo hi ax L c' cs'
  end.

(** The edges of consecutive intervals, the common ones once. *)
Definition joined (xs : list Q) (xss : list (list Q)) : list Q := xs ++ List.concat (List.map (@tl Q) xss).

Definition total (l : list nat) : nat := fold_right Nat.add 0%nat l.

(** A pair of indices, the one along the cut axis first. *)
Definition at2 (cut i j : nat) : list nat := if (cut =? 0)%nat then [i; j] else [j; i].

(** ** Lists *)
Lemma isort_id (l : list Q) : StronglySorted Qle l -> isort Qle_bool l = l.
Proof.
  induction l as [|a l IH]; intros H; [reflexivity|]. inversion H as [|? ? H1 H2]; subst. cbn [isort].
  rewrite IH by auto. destruct l as [|b l]; [reflexivity|]. cbn [insert].
  inversion H2; subst. now rewrite (proj2 (Qle_bool_iff a b)).
Qed.

Lemma dedup_step {B} (eqb : B -> B -> bool) a b l :
  dedup eqb (a :: b :: l) = if eqb a b then dedup eqb (b :: l) else a :: dedup eqb (b :: l).
Proof. reflexivity. Qed.

Lemma dedup_increasing (l : list Q) : increasing l -> dedup Qeq_bool l = l.
Proof.
  induction l as [|a l IH]; intros H; [reflexivity|]. inversion H as [|? ? H1 H2]; subst.
  destruct l as [|b l]; [reflexivity|]. rewrite dedup_step.
  inversion H2; subst. replace (Qeq_bool a b) with false; [now rewrite IH|].
  symmetry. apply not_true_iff_false. rewrite Qeq_bool_iff. intros E. rewrite E in *. lra.
Qed.

Lemma dedup_join (l : list Q) a b m : increasing (l ++ [a]) -> a == b ->
  dedup Qeq_bool ((l ++ [a]) ++ b :: m) = l ++ dedup Qeq_bool (b :: m).
Proof.
  intros H E. induction l as [|x l IH].
  - cbn [app dedup]. now rewrite (proj2 (Qeq_bool_iff a b)).
  - inversion H as [|? ? H1 H2]; subst.
    assert (Hx : exists y r, (l ++ [a]) ++ b :: m = y :: r /\ x < y).
    { rewrite Forall_forall in H2. destruct l as [|y l]; cbn [app].
      - exists a, (b :: m). split; [reflexivity|]. apply H2. now left.
      - exists y, ((l ++ [a]) ++ b :: m). split; [reflexivity|]. apply H2. now left. }
    destruct Hx as (y & r & Er & Hlt).
    change (((x :: l) ++ [a]) ++ b :: m) with (x :: ((l ++ [a]) ++ b :: m)).
    cbn [app]. rewrite <- (IH H1). rewrite Er, dedup_step.
    replace (Qeq_bool x y) with false; [reflexivity|].
    symmetry. apply not_true_iff_false. rewrite Qeq_bool_iff. intros E'. rewrite E' in *. lra.
Qed.

Lemma Forall2_refl_Q (l : list Q) : Forall2 Qeq l l.
Proof. induction l; constructor; auto. reflexivity. Qed.

Lemma last_split (l : list Q) n a : length l = S n -> nth_error l n = Some a -> exists l', l = l' ++ [a].
Proof.
  intros Hl Hn. destruct (exists_last (l := l)) as (l' & b & ->); [intros ->; discriminate|].
  rewrite app_length in Hl. cbn in Hl. rewrite nth_error_app2 in Hn by lia.
  replace (n - length l')%nat with 0%nat in Hn by lia. cbn in Hn. injection Hn as ->. eauto.
Qed.

(** Consecutive lists of increasing edges. *)
Inductive consecutive : list (list Q) -> Prop :=
| con_one l : l <> [] -> increasing l -> consecutive [l]
| con_cons l a b m ls : increasing (l ++ [a]) -> a == b -> consecutive ((b :: m) :: ls) ->
    consecutive ((l ++ [a]) :: (b :: m) :: ls).

Lemma increasing_le l : increasing l -> StronglySorted Qle l.
Proof.
  induction 1 as [|a l H IH F]; constructor; auto. rewrite Forall_forall in *. intros x Hx.
  apply Qlt_le_weak. auto.
Qed.

Lemma sorted_app (l m : list Q) : StronglySorted Qle l -> StronglySorted Qle m ->
  (forall x y, In x l -> In y m -> x <= y) -> StronglySorted Qle (l ++ m).
Proof.
  intros Hl Hm H. induction Hl as [|a l Hl IH F]; [exact Hm|]. cbn [app]. constructor.
  - apply IH. intros; apply H; [now right|auto].
  - apply Forall_forall. intros x Hx. apply in_app_or in Hx as [Hx|Hx].
    + rewrite Forall_forall in F. auto.
    + apply H; [now left|auto].
Qed.

Lemma increasing_last l a : increasing (l ++ [a]) -> forall x, In x (l ++ [a]) -> x <= a.
Proof.
  induction l as [|b l IH]; intros H x Hx; cbn [app] in *.
  - destruct Hx as [->|[]]. apply Qle_refl.
  - inversion H as [|? ? H1 H2]; subst. destruct Hx as [->|Hx]; [|now apply IH].
    rewrite Forall_forall in H2. apply Qlt_le_weak, H2. apply in_or_app. right. now left.
Qed.

Lemma consecutive_sorted ls : consecutive ls -> StronglySorted Qle (List.concat ls).
Proof.
  induction 1 as [l Hn Hi|l a b m ls Hi E Hc IH].
  - cbn. rewrite app_nil_r. now apply increasing_le.
  - change (List.concat ((l ++ [a]) :: (b :: m) :: ls)) with ((l ++ [a]) ++ List.concat ((b :: m) :: ls)).
    apply sorted_app; [now apply increasing_le|exact IH|].
    intros x y Hx Hy. pose proof (increasing_last _ _ Hi x Hx) as Hxa.
    assert (Hby : b <= y).
    { cbn in IH, Hy. inversion IH as [|? ? _ F]; subst. destruct Hy as [->|Hy]; [apply Qle_refl|].
      rewrite Forall_forall in F. auto. }
    lra.
Qed.

Lemma consecutive_unique l ls : consecutive (l :: ls) ->
  Forall2 Qeq (unique_Q (List.concat (l :: ls))) (joined l ls) /\ increasing (unique_Q (List.concat (l :: ls))).
Proof.
  intros H. unfold unique_Q. rewrite isort_id by now apply consecutive_sorted.
  remember (l :: ls) as lls eqn:E. revert l ls E.
  assert (G : lls <> [] /\ forall l ls, lls = l :: ls ->
     Forall2 Qeq (dedup Qeq_bool (List.concat (l :: ls))) (joined l ls) /\
     increasing (dedup Qeq_bool (List.concat (l :: ls)))).
  { induction H as [l Hn Hi|l a b m ls Hi E Hc IH]; (split; [discriminate|]); intros l0 ls0 [= <- <-].
    - unfold joined. cbn. rewrite !app_nil_r, dedup_increasing by auto. split; [apply Forall2_refl_Q|auto].
    - destruct IH as [_ IH]. destruct (IH _ _ eq_refl) as [I1 I2].
      change (List.concat ((l ++ [a]) :: (b :: m) :: ls)) with ((l ++ [a]) ++ List.concat ((b :: m) :: ls)).
      cbn [List.concat app] in I1, I2 |- *. rewrite dedup_join by auto.
      unfold joined in *. cbn [List.map tl List.concat] in *.
      assert (Hhd : exists h r, dedup Qeq_bool (b :: m ++ List.concat ls) = h :: r).
      { destruct (dedup Qeq_bool (b :: m ++ List.concat ls)) as [|h r]; [inversion I1|eauto]. }
      destruct Hhd as (h & r & Er). rewrite Er in *.
      cbn [app] in I1. inversion I1 as [|? ? ? ? Hh I1']; subst. split.
      + rewrite <- app_assoc. apply Forall2_app; [apply Forall2_refl_Q|]. cbn [app]. constructor; [|exact I1'].
        rewrite Hh. now symmetry.
      + clear - Hi I2 Hh E. induction l as [|x l IHl]; [exact I2|]. inversion Hi as [|? ? H1 H2]; subst.
        constructor; [now apply IHl|]. rewrite Forall_forall in *. intros y Hy.
        apply in_app_or in Hy as [Hy|Hy]; [apply H2, in_or_app; now left|].
        assert (Hxa : x < a) by (apply H2, in_or_app; right; now left).
        assert (Hhy : h <= y).
        { destruct Hy as [->|Hy]; [apply Qle_refl|]. inversion I2 as [|? ? _ F]; subst.
          rewrite Forall_forall in F. apply Qlt_le_weak. auto. }
        lra. }
  intros l ls E. destruct G as [_ G]. subst. now apply G.
Qed.

Lemma firstn_plus {B} n m (l : list B) : firstn (n + m) l = firstn n l ++ firstn m (skipn n l).
Proof. revert l; induction n as [|n IH]; intros l; [reflexivity|]. destruct l; [cbn; now rewrite firstn_nil|]. cbn. now rewrite IH. Qed.

Lemma chunks_concat {B} m n (l : list B) :
  List.concat (List.map (fun j => firstn m (skipn (j * m) l)) (seq 0 n)) = firstn (n * m) l.
Proof.
  induction n as [|n IH]; [reflexivity|]. rewrite seq_S, map_app, concat_app, IH. cbn [List.map List.concat Nat.add].
  rewrite app_nil_r. replace (S n * m)%nat with (n * m + m)%nat by lia. now rewrite firstn_plus.
Qed.

Lemma nth_error_concat {B C} (f : C -> list B) (len : C -> nat) (l : list C) m p c k :
  (forall x, In x l -> length (f x) = (len x * m)%nat) -> nth_error l p = Some c -> (k < len c * m)%nat ->
  nth_error (List.concat (List.map f l)) (total (List.map len (firstn p l)) * m + k) = nth_error (f c) k.
Proof.
  revert p. induction l as [|x l IH]; intros [|p] Hl Hp Hk; try discriminate; cbn [List.map List.concat].
  - injection Hp as ->. cbn. rewrite nth_error_app1; [reflexivity|]. rewrite Hl by now left. lia.
  - cbn [firstn List.map total fold_right] in *. rewrite nth_error_app2 by (rewrite Hl by (now left); lia).
    rewrite Hl by now left.
    replace ((len x + fold_right Nat.add 0 (List.map len (firstn p l))) * m + k - len x * m)%nat
      with (total (List.map len (firstn p l)) * m + k)%nat by (unfold total; lia).
    apply IH; auto. intros; apply Hl; now right.
Qed.

Lemma length_concat_total {B C} (f : C -> list B) (len : C -> nat) (l : list C) m :
  (forall x, In x l -> length (f x) = (len x * m)%nat) ->
  length (List.concat (List.map f l)) = (total (List.map len l) * m)%nat.
Proof.
  induction l as [|x l IH]; intros H; [reflexivity|]. cbn [List.map List.concat total fold_right].
  rewrite app_length, H by now left. rewrite IH by (intros; apply H; now right). unfold total. lia.
Qed.

(** ** One block *)
Section Line.
  Context {A : Type} (pfloat : string -> option Q).
  Implicit Types (ds : dspace (blk A)) (r : ref).

  Definition grid2 (cut : nat) (gc xs : list Q) : list garr :=
    if (cut =? 0)%nat then [line gc; line xs] else [line xs; line gc].

  Definition cut_take (cut i n : nat) (ks : list nat) (v : nda A) : nda A :=
    take ((if (cut =? 0)%nat then [seq i 1; seq 0 n] else [seq 0 n; seq i 1]) ++ [ks]) v.

  Definition strips (sh : list nat) (m n : nat) (fl : list A) : list (nda A) :=
    List.map (fun j => mk_nda sh (firstn m (skipn (j * m) fl))) (seq 0 n).

  Lemma cut_block_ok ds r b cut i (X : nat -> list Q) V N nc lo hi z comp ks :
    (cut < 2)%nat -> block_at ds r = Ok b -> is_block (b_data b) X V N nc lo hi ->
    cut_means pfloat (X cut) (N cut) (Some (VStr z)) i (S i) ->
    comp_means nc (option_map VStr comp) ks ->
    cut_block pfloat ds r cut z comp
    = Ok (grid2 cut (stretch (X cut) i 2) (X (1 - cut)%nat), cut_take cut i (N (1 - cut)%nat) ks V).
  Proof.
    intros Hc Hb HB Hm Hk. unfold cut_block. rewrite Hb. cbn [bind].
    destruct (ib_edges _ _ _ _ _ _ _ HB 0) as (E0 & _); [lia|].
    destruct (ib_edges _ _ _ _ _ _ _ HB 1) as (E1 & _); [lia|].
    destruct cut as [|[|cut]]; [| |lia]; cbn [Nat.eqb].
    - rewrite (select_block_lemma pfloat (b_data b) [X 0%nat; X 1%nat] V [N 0%nat; N 1%nat] nc _ _
                 [(i, S i); (0%nat, N 1%nat)] ks); [|apply (ib_data _ _ _ _ _ _ _ HB)| |exact Hk].
      + cbn [bind fst]. unfold grid2, cut_take, sel_of, grid_of. change (1 - 0)%nat with 1%nat. cbn [Nat.eqb combine map2 List.map fst snd].
        rewrite (coords_kept_whole (N 1%nat)) by now left. rewrite !Nat.sub_0_r.
        replace (S i - i)%nat with 1%nat by lia.
        unfold coords_kept. replace (length (X 0%nat) =? N 0%nat)%nat with false.
        2:{ symmetry. apply Nat.eqb_neq. unfold edges_of in E0. lia. }
        replace (S i - i)%nat with 1%nat by lia. reflexivity.
      + split; [reflexivity|]. intros [|[|k]] g n a b0 Hg Hn Hab; cbn in Hg, Hn, Hab; try (destruct k; discriminate).
        * injection Hg as <-. injection Hn as <-. injection Hab as <- <-. exact Hm.
        * injection Hg as <-. injection Hn as <-. injection Hab as <- <-. constructor.
    - rewrite (select_block_lemma pfloat (b_data b) [X 0%nat; X 1%nat] V [N 0%nat; N 1%nat] nc _ _
                 [(0%nat, N 0%nat); (i, S i)] ks); [|apply (ib_data _ _ _ _ _ _ _ HB)| |exact Hk].
      + cbn [bind fst]. unfold grid2, cut_take, sel_of, grid_of. change (1 - 1)%nat with 0%nat. cbn [Nat.eqb combine map2 List.map fst snd].
        rewrite (coords_kept_whole (N 0%nat)) by now left. rewrite !Nat.sub_0_r.
        replace (S i - i)%nat with 1%nat by lia.
        unfold coords_kept. replace (length (X 1%nat) =? N 1%nat)%nat with false.
        2:{ symmetry. apply Nat.eqb_neq. unfold edges_of in E1. lia. }
        replace (S i - i)%nat with 1%nat by lia. reflexivity.
      + split; [reflexivity|]. intros [|[|k]] g n a b0 Hg Hn Hab; cbn in Hg, Hn, Hab; try (destruct k; discriminate).
        * injection Hg as <-. injection Hn as <-. injection Hab as <- <-. constructor.
        * injection Hg as <-. injection Hn as <-. injection Hab as <- <-. exact Hm.
  Qed.

  Lemma cut_take_flat d (X : nat -> list Q) (V : nda A) N nc lo hi cut i ks :
    (cut < 2)%nat -> is_block d X V N nc lo hi -> (i < N cut)%nat -> (forall k, In k ks -> (k < nc)%nat) ->
    let T := cut_take cut i (N (1 - cut)%nat) ks V in
    length (flat T) = (N (1 - cut)%nat * length ks)%nat /\
    (forall j k kk, (j < N (1 - cut)%nat)%nat -> nth_error ks kk = Some k ->
       nth_error (flat T) (j * length ks + kk) = get V (at2 cut i j ++ [k])) /\
    shape T = (if (cut =? 0)%nat then [1; N 1; length ks] else [N 0; 1; length ks])%nat.
  Proof.
    intros Hc HB Hi Hk T. pose proof (ib_data _ _ _ _ _ _ _ HB) as R.
    set (cuts := if (cut =? 0)%nat then [(i, S i); (0%nat, N 1%nat)] else [(0%nat, N 0%nat); (i, S i)]).
    assert (ET : T = take (sel_of cuts ++ [ks]) V).
    { unfold T, cut_take, cuts, sel_of. destruct cut as [|[|cut]]; [| |lia]; [change (1 - 0)%nat with 1%nat|change (1 - 1)%nat with 0%nat]; cbn [Nat.eqb List.map fst snd];
        rewrite Nat.sub_0_r; replace (S i - i)%nat with 1%nat by lia; reflexivity. }
    assert (Hb : Forall2 (fun ab n => (fst ab <= snd ab <= n)%nat) cuts [N 0%nat; N 1%nat]).
    { unfold cuts. destruct cut as [|[|cut]]; [| |lia]; cbn [Nat.eqb]; (constructor; [|constructor; [|constructor]]); cbn; lia. }
    assert (Hsh : shape T = (if (cut =? 0)%nat then [1; N 1; length ks] else [N 0; 1; length ks])%nat).
    { rewrite ET. cbn [shape take]. rewrite map_app, sel_of_lengths. unfold cuts.
      destruct cut as [|[|cut]]; [| |lia]; cbn [Nat.eqb List.map fst snd app];
        rewrite Nat.sub_0_r; replace (S i - i)%nat with 1%nat by lia; reflexivity. }
    assert (Hwf : wf T).
    { rewrite ET. apply wf_take; [apply (rd_wf _ _ _ _ _ R)|]. rewrite (rd_shape _ _ _ _ _ R). now apply sel_of_bounds. }
    split; [|split; [|exact Hsh]].
    - rewrite Hwf, Hsh. destruct cut as [|[|cut]]; [| |lia]; cbn [Nat.eqb prod fold_right Nat.sub]; unfold prod; cbn; lia.
    - intros j k kk Hj Hkk.
      assert (Hkl : (kk < length ks)%nat) by (apply nth_error_Some; congruence).
      assert (G : get T (at2 cut 0 j ++ [kk]) = get V (at2 cut i j ++ [k])).
      { rewrite ET. rewrite (take_block_get V [N 0%nat; N 1%nat] nc cuts ks (at2 cut 0 j) kk k); auto.
        - f_equal. f_equal. unfold cuts, at2. destruct cut as [|[|cut]]; [| |lia]; cbn; f_equal; try lia; f_equal; lia.
        - apply (rd_wf _ _ _ _ _ R).
        - apply (rd_shape _ _ _ _ _ R).
        - unfold cuts, at2. destruct cut as [|[|cut]]; [| |lia]; cbn [Nat.eqb List.map fst snd];
            change (1 - 0)%nat with 1%nat in *; change (1 - 1)%nat with 0%nat in *;
            (constructor; [|constructor; [|constructor]]); lia. }
      rewrite <- G. unfold get. rewrite Hsh. unfold at2.
      destruct cut as [|[|cut]]; [| |lia]; cbn [Nat.eqb app ravel option_map].
      + replace (0 <? 1)%nat with true by reflexivity.
        rewrite (proj2 (Nat.ltb_lt j (N 1%nat))) by exact Hj. rewrite (proj2 (Nat.ltb_lt kk _) Hkl). cbn [option_map].
        f_equal. unfold prod; cbn; lia.
      + rewrite (proj2 (Nat.ltb_lt j (N 0%nat))) by exact Hj. replace (0 <? 1)%nat with true by reflexivity.
        rewrite (proj2 (Nat.ltb_lt kk _) Hkl). cbn [option_map]. f_equal. unfold prod; cbn; lia.
  Qed.

  Definition row_shape (cut m : nat) : list nat := if (cut =? 0)%nat then [m] else [1%nat; m].

  Lemma cut_rows_ok cut (T : nda A) n m : (cut < 2)%nat ->
    shape T = (if (cut =? 0)%nat then [1; n; m] else [n; 1; m])%nat -> length (flat T) = (n * m)%nat ->
    cut_rows cut T = Ok (strips (row_shape cut m) m n (flat T)).
  Proof.
    intros Hc Hs Hl. unfold cut_rows, first_row, rows, strips, row_shape. rewrite Hs.
    destruct cut as [|[|cut]]; [| |lia]; cbn [Nat.eqb].
    - cbn [seq List.map bind shape flat]. unfold prod. cbn [fold_right]. rewrite !Nat.mul_1_r. cbn [Nat.mul skipn].
      rewrite firstn_all2 by lia. reflexivity.
    - unfold prod. cbn [fold_right]. rewrite !Nat.mul_1_r, !Nat.mul_1_l. reflexivity.
  Qed.

  Lemma strips_flat sh m n (fl : list A) : length fl = (n * m)%nat -> List.concat (List.map flat (strips sh m n fl)) = fl.
  Proof.
    intros H. unfold strips. rewrite map_map. cbn [flat]. rewrite chunks_concat. apply firstn_all2. lia.
  Qed.

  Lemma stack_ok (l : list (nda A)) sh : l <> [] -> (forall a, In a l -> shape a = sh) ->
    stack l = Ok (mk_nda (length l :: sh) (List.concat (List.map flat l))).
  Proof.
    intros Hn H. destruct l as [|a l]; [congruence|]. unfold stack. rewrite (H a) by now left.
    replace (forallb _ (a :: l)) with true; [reflexivity|]. symmetry. apply forallb_forall. intros b Hb.
    rewrite (H b Hb). now destruct (list_eq_dec Nat.eq_dec sh sh).
  Qed.

  Lemma append_axis_ok cut gc gc' xs ys : (cut < 2)%nat ->
    append_axis (1 - cut) (grid2 cut gc xs) (grid2 cut gc' ys) = Ok (grid2 cut gc (xs ++ ys)).
  Proof. intros H. destruct cut as [|[|cut]]; [| |lia]; reflexivity. Qed.

  Lemma unique_axis_ok cut gc xs : (cut < 2)%nat ->
    unique_axis (1 - cut) (grid2 cut gc xs) = Ok (grid2 cut gc (unique_Q xs)).
  Proof. intros H. destruct cut as [|[|cut]]; [| |lia]; reflexivity. Qed.

  (** ** The data space *)

  (** Nothing but frame numbers and neighbours differs. *)
  Definition strip (d : dset (blk A)) := (ds_id d, ds_file d, ds_status d, ds_label d, b_data (ds_data d)).
  Definition sim ds ds' : Prop :=
    List.map fst ds' = List.map fst ds /\ (forall t, lens ds' t = lens ds t) /\
    forall r, option_map strip (lookup ds' r) = option_map strip (lookup ds r).

  Lemma sim_refl ds : sim ds ds.
  Proof. repeat split. Qed.
  Lemma sim_trans ds1 ds2 ds3 : sim ds1 ds2 -> sim ds2 ds3 -> sim ds1 ds3.
  Proof. intros (A1 & A2 & A3) (B1 & B2 & B3). split; [congruence|]. split; intros; [now rewrite B2|now rewrite B3]. Qed.

  Lemma sim_modify ds r f : (forall d, strip (f d) = strip d) -> sim ds (modify ds r f).
  Proof.
    intros H. split; [apply keys_modify|]. split; [intros t; unfold lens; apply length_modify|].
    intros r'. rewrite lookup_modify. destruct (ref_eq_dec r' r); [|reflexivity].
    subst. destruct (lookup ds r); cbn [option_map]; [now rewrite H|reflexivity].
  Qed.

  Lemma sim_lookup ds ds' r d : sim ds ds' -> lookup ds r = Some d -> exists d', lookup ds' r = Some d' /\ strip d' = strip d.
  Proof.
    intros (_ & _ & H) E. specialize (H r). rewrite E in H. destruct (lookup ds' r) as [d'|]; [|discriminate].
    cbn [option_map] in H. injection H as H1. exists d'. split; [reflexivity|]. unfold strip. congruence.
  Qed.

  Lemma sim_lookup_back ds ds' r d' : sim ds ds' -> lookup ds' r = Some d' -> exists d, lookup ds r = Some d /\ strip d' = strip d.
  Proof.
    intros (_ & _ & H) E. specialize (H r). rewrite E in H. destruct (lookup ds r) as [d|]; [|discriminate].
    cbn [option_map] in H. injection H as H1. exists d. split; [reflexivity|]. unfold strip. congruence.
  Qed.

  Lemma sim_active ds ds' ts : sim ds ds' -> active_all ds' ts = active_all ds ts.
  Proof.
    intros (H1 & H2 & H3). unfold active_all.
    assert (E1 : selected ts (all_of ds') = selected ts (all_of ds)).
    { unfold selected. apply flat_map_ext. intros t. f_equal. unfold all_of. specialize (H2 t). unfold lens in H2.
      destruct (aget t ds'), (aget t ds); try discriminate; auto. cbn in H2. injection H2 as ->. reflexivity. }
    rewrite E1. apply filter_ext. intros r. unfold is_active. specialize (H3 r).
    destruct (lookup ds' r), (lookup ds r); try discriminate; auto. cbn in H3. unfold strip in H3. congruence.
  Qed.

  Lemma sim_refs ds ds' use ts : sim ds ds' -> names ds use ts -> Forall (fun t => In t (List.map fst ds)) ts ->
    refs_of ds' use = Ok (active_all ds ts).
  Proof.
    intros H Hn Hk. unfold refs_of.
    destruct (visits_all ds' use ts) as (vs & E & Es).
    - apply (names_transfer ds ds'); [apply H|exact Hn].
    - destruct H as (H & _). rewrite H. exact Hk.
    - rewrite E. cbn [bind]. f_equal. rewrite Es. now apply sim_active.
  Qed.

  Lemma set_frame_sim ds ds' fr : set_frame ds = Ok (ds', fr) ->
    sim ds ds' /\ forall r d d', lookup ds r = Some d -> lookup ds' r = Some d' -> b_nbrs (ds_data d') = b_nbrs (ds_data d).
  Proof.
    unfold set_frame. intros H. apply bind_ok in H as (rs & _ & H).
    destruct (List.map _ rs) as [|f fs]; [discriminate|]. apply bind_ok in H as (frames & _ & H).
    apply bind_ok in H as (ds1 & H & E). injection E as <- _.
    apply (iterate_rel (fun ds => ds) _ _ (fun x y => sim x y /\
      forall r d d', lookup x r = Some d -> lookup y r = Some d' -> b_nbrs (ds_data d') = b_nbrs (ds_data d))) in H.
    - exact H.
    - intros x. split; [apply sim_refl|]. congruence.
    - intros x y z [S1 N1] [S2 N2]. split; [now apply (sim_trans x y z)|].
      intros r d d' Hd Hd'. destruct (sim_lookup x y r d S1 Hd) as (e & He & _). rewrite (N2 r e d') by auto. now apply (N1 r).
    - intros i r x y. destruct (nth_error frames i); [|discriminate]. intros [= <-]. split.
      + apply sim_modify. reflexivity.
      + intros r' d d' Hd. rewrite lookup_modify. destruct (ref_eq_dec r' r) as [->|]; [|congruence].
        rewrite Hd. cbn [option_map]. now intros [= <-].
  Qed.

  (** The data space holds, under each of [L], the block described. *)
  Context (D : ref -> gdata A) (L : list ref).
  Definition holds ds : Prop := forall r, In r L -> exists d, lookup ds r = Some d /\ b_data (ds_data d) = D r.

  Lemma holds_sim ds ds' : sim ds ds' -> holds ds -> holds ds'.
  Proof.
    intros Sm H r Hr. destruct (H r Hr) as (d & E & Ed). destruct (sim_lookup _ _ _ _ Sm E) as (d' & E' & Es).
    exists d'. split; [exact E'|]. unfold strip in Es. congruence.
  Qed.

  Lemma holds_at ds r : holds ds -> In r L -> exists b, block_at ds r = Ok b /\ b_data b = D r.
  Proof. intros H Hr. destruct (H r Hr) as (d & E & Ed). exists (ds_data d). unfold block_at. now rewrite E. Qed.

  Context (X : ref -> nat -> list Q) (V : ref -> nda A) (N : ref -> nat -> nat) (nc : nat) (lo hi : ref -> nat -> Q).
  Context (HB : forall r, In r L -> is_block (D r) (X r) (V r) (N r) nc (lo r) (hi r)).
  Context (Hno : no_overlap 2 lo hi L) (Hsep : separated 2 lo hi L).

  Lemma block_spans r : In r L -> spans 2 (D r) (lo r) (hi r).
  Proof.
    intros Hr. pose proof (HB r Hr) as B. pose proof (ib_data _ _ _ _ _ _ _ B) as R. split.
    - unfold get_num_dims. now rewrite (rd_cells _ _ _ _ _ R).
    - eexists. split; [apply (rd_grid _ _ _ _ _ R)|]. intros k Hk.
      destruct (ib_edges _ _ _ _ _ _ _ B k Hk) as (E & I & Hn & Hlo & Hhi). unfold edges_of in E.
      exists (length (X r k)), (X r k).
      split; [destruct k as [|[|k]]; [reflexivity|reflexivity|lia]|]. split; [exact Hlo|].
      split; [rewrite E; cbn [Nat.sub]; now rewrite Nat.sub_0_r|].
      destruct (X r k) as [|x xs]; [discriminate|]. cbn in Hlo. injection Hlo as ->.
      destruct (N r k) as [|m]; [lia|]. cbn in Hhi. apply nth_error_In in Hhi.
      inversion I as [|? ? _ F]; subst. rewrite Forall_forall in F. auto.
  Qed.

  (** A block that has no neighbours yet gets the right upper one. *)
  Lemma set_neighbors_ok ds r d : holds ds -> In r L -> lookup ds r = Some d -> b_nbrs (ds_data d) = [] ->
    exists ds', set_neighbors ds r L = Ok ds' /\ sim ds ds' /\
      (forall s, s <> r -> lookup ds' s = lookup ds s) /\
      forall k, (k < 2)%nat -> exists u, upper_nbr ds' r k = Ok u /\
        forall s, u = Some s <-> In s L /\ above 2 lo hi k r s.
  Proof.
    intros H Hr Hd Hn. unfold set_neighbors.
    assert (Eb : block_at ds r = Ok (ds_data d)) by (unfold block_at; now rewrite Hd).
    rewrite Eb. cbn [bind].
    assert (ED : b_data (ds_data d) = D r).
    { destruct (H r Hr) as (d' & E' & Ed'). rewrite Hd in E'. injection E' as <-. exact Ed'. }
    rewrite (mapM_all_ok _ (fun s => (s, D s))).
    2:{ intros s Hs. destruct (holds_at ds s H Hs) as (b & -> & Eb'). cbn [bind]. now rewrite Eb'. }
    cbn [bind]. rewrite Hn, ED.
    destruct (C86_neighbours 2 (List.map (fun s => (s, D s)) L) lo hi r (D r)) as (nb & En & Hl & Hnb).
    - now right.
    - now apply (in_map (fun s => (s, D s))).
    - intros s e He. apply in_map_iff in He as (s' & [= -> <-] & Hs). now apply block_spans.
    - rewrite map_map. cbn [fst]. now rewrite map_id.
    - rewrite map_map. cbn [fst]. now rewrite map_id.
    - rewrite En. cbn [bind]. eexists. split; [reflexivity|]. split; [apply sim_modify; reflexivity|]. split.
      + intros s Hs. rewrite lookup_modify. destruct (ref_eq_dec s r); [contradiction|reflexivity].
      + intros k Hk. destruct (Hnb k Hk) as (a & b & Ek & _ & Hup).
        rewrite map_map in Hup. cbn [fst] in Hup. rewrite map_id in Hup.
        exists b. split; [|exact Hup].
        unfold upper_nbr, block_at. rewrite lookup_modify. destruct (ref_eq_dec r r); [|contradiction].
        rewrite Hd. cbn [option_map bind set_data ds_data set_b_nbrs b_nbrs]. now rewrite Ek.
  Qed.

  Context (cut : nat) (z : string) (comp : option string) (ks : list nat) (i : ref -> nat).
  Context (Hcut : (cut < 2)%nat) (Hks : comp_means nc (option_map VStr comp) ks).

  Let ax := (1 - cut)%nat.
  Let T (c : ref) : nda A := cut_take cut (i c) (N c ax) ks (V c).
  Let rs (c : ref) : list (nda A) := strips (row_shape cut (length ks)) (length ks) (N c ax) (flat (T c)).

  Definition on_line (c : ref) : Prop :=
    In c L /\ cut_means pfloat (X c cut) (N c cut) (Some (VStr z)) (i c) (S (i c)).

  Lemma on_line_lt c : on_line c -> (i c < N c cut)%nat.
  Proof.
    intros [Hc Hm]. destruct (ib_edges _ _ _ _ _ _ _ (HB c Hc) cut Hcut) as (E & _).
    destruct (cut_means_le pfloat _ _ _ _ _ (or_introl E) Hm). lia.
  Qed.

  Lemma T_facts c : on_line c ->
    length (flat (T c)) = (N c ax * length ks)%nat /\
    (forall j k kk, (j < N c ax)%nat -> nth_error ks kk = Some k ->
       nth_error (flat (T c)) (j * length ks + kk) = get (V c) (at2 cut (i c) j ++ [k])) /\
    shape (T c) = (if (cut =? 0)%nat then [1; N c 1; length ks] else [N c 0; 1; length ks])%nat.
  Proof.
    intros Hc. apply (cut_take_flat (D c) (X c) (V c) (N c) nc (lo c) (hi c)); auto.
    - apply HB, Hc.
    - now apply on_line_lt.
    - intros k Hk. eapply comp_means_lt; eauto.
  Qed.

  Lemma step_ok ds c : holds ds -> on_line c ->
    cut_block pfloat ds c cut z comp = Ok (grid2 cut (stretch (X c cut) (i c) 2) (X c ax), T c) /\
    cut_rows cut (T c) = Ok (rs c).
  Proof.
    intros H Hc. destruct (holds_at ds c H (proj1 Hc)) as (b & Eb & ED). split.
    - apply (cut_block_ok ds c b cut (i c) (X c) (V c) (N c) nc (lo c) (hi c)); auto.
      + rewrite ED. apply HB, Hc.
      + apply Hc.
    - destruct (T_facts c Hc) as (E1 & _ & E3). apply cut_rows_ok; auto. rewrite E3.
      unfold ax. destruct cut as [|[|k]]; [reflexivity|reflexivity|lia].
  Qed.

  Lemma stacked_above ax0 c cs : stacked lo hi ax0 L c cs -> (ax0 < 2)%nat -> In c L ->
    forall s, In s cs -> In s L /\ lo c ax0 < lo s ax0.
  Proof.
    revert c. induction cs as [|c' cs IH]; intros c H Hax Hc s Hs; [destruct Hs|].
    cbn [stacked] in H. destruct H as (Hc' & Ha & H).
    assert (Hlt : lo c ax0 < lo c' ax0).
    { destruct Ha as [Ha _]. rewrite Ha. apply (spans_edges 2 (D c) (lo c) (hi c) ax0); auto. now apply block_spans. }
    destruct Hs as [->|Hs]; [auto|]. destruct (IH c' H Hax Hc' s Hs) as [I1 I2]. split; [auto|]. lra.
  Qed.

  Context (use : option string) (ts : list string) (ds0 : dspace (blk A)).
  Context (Hnames : names ds0 use ts) (Hkeys : Forall (fun t => In t (List.map fst ds0)) ts).
  Context (HL : L = active_all ds0 ts).

  Lemma follow_ok : forall cs fuel ds c gc xs vl,
    (length cs < fuel)%nat -> sim ds0 ds -> holds ds -> Forall on_line (c :: cs) -> stacked lo hi ax L c cs ->
    (exists u, upper_nbr ds c ax = Ok u /\ forall s, u = Some s <-> In s L /\ above 2 lo hi ax c s) ->
    (forall s d, In s cs -> lookup ds s = Some d -> b_nbrs (ds_data d) = []) ->
    exists ds' c', follow pfloat fuel ds use c cut z comp (grid2 cut gc xs) vl
      = Ok (ds', c', grid2 cut gc (xs ++ List.concat (List.map (fun c => X c ax) cs)),
            vl ++ List.concat (List.map rs cs)) /\ sim ds0 ds'.
  Proof.
    induction cs as [|c' cs IH]; intros fuel ds c gc xs vl Hf Sm H Hon Hst (u & Eu & Hu) Hnb;
      (destruct fuel as [|fuel]; [cbn in Hf; lia|]); cbn [follow]; fold ax; rewrite Eu; cbn [bind].
    - destruct u as [s|].
      + exfalso. destruct (proj1 (Hu s) eq_refl) as [H1 H2]. cbn in Hst. now apply (Hst s).
      + exists ds, c. cbn. rewrite !app_nil_r. auto.
    - cbn [stacked] in Hst. destruct Hst as (Hc' & Ha & Hst).
      assert (Eu' : u = Some c') by (apply Hu; auto). subst u.
      rewrite (sim_refs ds0 ds use ts Sm Hnames Hkeys). cbn [bind]. rewrite <- HL.
      destruct (H c' Hc') as (d' & Ed' & _).
      destruct (set_neighbors_ok ds c' d' H Hc' Ed') as (ds1 & E1 & S1 & O1 & U1).
      { apply (Hnb c'); [now left|exact Ed']. }
      rewrite E1. cbn [bind].
      inversion Hon as [|? ? Hc0 Hon']; subst. inversion Hon' as [|? ? Hcl Hon'']; subst.
      assert (H1 : holds ds1) by now apply (holds_sim ds).
      destruct (step_ok ds1 c' H1 Hcl) as [E2 E3]. rewrite E2. cbn [bind fst snd].
      pose proof (append_axis_ok cut gc (stretch (X c' cut) (i c') 2) xs (X c' ax) Hcut) as EA. fold ax in EA.
      rewrite EA. cbn [bind]. rewrite E3. cbn [bind].
      destruct (IH fuel ds1 c' gc (xs ++ X c' ax) (vl ++ rs c')) as (ds2 & c2 & E4 & S4); auto.
      + cbn in Hf. lia.
      + now apply (sim_trans ds0 ds ds1).
      + apply U1. unfold ax. lia.
      + intros s d Hs Hd. destruct (stacked_above ax c' cs Hst) with (s := s) as [Hs1 Hs2]; auto; [unfold ax; lia|].
        assert (Hne : s <> c') by (intros ->; lra). rewrite O1 in Hd by exact Hne.
        apply (Hnb s d); [now right|exact Hd].
      + exists ds2, c2. split; [|exact S4]. rewrite E4. cbn [List.map List.concat]. now rewrite !app_assoc.
  Qed.

  Lemma chain_consecutive c cs : Forall on_line (c :: cs) -> stacked lo hi ax L c cs ->
    consecutive (X c ax :: List.map (fun c => X c ax) cs).
  Proof.
    revert c. induction cs as [|c' cs IH]; intros c Hon Hst.
    - cbn [List.map]. inversion Hon as [|? ? [Hc _] _]; subst.
      destruct (ib_edges _ _ _ _ _ _ _ (HB c Hc) ax) as (E & I & _); [unfold ax; lia|].
      constructor; auto. intros E0. unfold edges_of in E. rewrite E0 in E. discriminate.
    - cbn [stacked] in Hst. destruct Hst as (Hc' & [Ha _] & Hst).
      inversion Hon as [|? ? [Hc _] Hon']; subst. cbn [List.map].
      specialize (IH c' Hon' Hst).
      destruct (ib_edges _ _ _ _ _ _ _ (HB c Hc) ax) as (E & I & _ & _ & Hhi); [unfold ax; lia|].
      destruct (ib_edges _ _ _ _ _ _ _ (HB c' Hc') ax) as (_ & _ & _ & Hlo & _); [unfold ax; lia|].
      destruct (X c' ax) as [|b m]; [discriminate|]. cbn in Hlo. injection Hlo as ->.
      destruct (last_split _ _ _ E Hhi) as (l' & El). rewrite El in *. constructor; auto. now symmetry.
  Qed.

  Lemma line_length c cs : Forall on_line (c :: cs) -> stacked lo hi ax L c cs ->
    length (unique_Q (List.concat (List.map (fun c => X c ax) (c :: cs)))) = S (total (List.map (fun c => N c ax) (c :: cs))).
  Proof.
    intros Hon Hst. destruct (consecutive_unique _ _ (chain_consecutive c cs Hon Hst)) as [F _].
    apply Forall2_length in F. cbn [List.map] in *. rewrite F. unfold joined.
    rewrite app_length. inversion Hon as [|? ? [Hc _] Hon']; subst.
    destruct (ib_edges _ _ _ _ _ _ _ (HB c Hc) ax) as (E & _); [unfold ax; lia|]. unfold edges_of in E. rewrite E.
    cbn [total fold_right Nat.add]. f_equal. f_equal. clear - Hon' HB Hcut. induction Hon' as [|c' cs [Hc' _] H IH]; [reflexivity|].
    cbn [List.map List.concat fold_right]. rewrite app_length, IH.
    destruct (ib_edges _ _ _ _ _ _ _ (HB c' Hc') ax) as (E & _); [unfold ax; lia|]. unfold edges_of in E.
    destruct (X c' ax); [discriminate|]. cbn in E |- *. lia.
  Qed.

  Definition line_shape (n : nat) : list nat :=
    if (cut =? 0)%nat then [1%nat; n; length ks] else [n; 1%nat; length ks].

  Lemma lineout_ok c cs fuel ds :
    (length cs < fuel)%nat -> sim ds0 ds -> holds ds -> Forall on_line (c :: cs) -> stacked lo hi ax L c cs ->
    (exists u, upper_nbr ds c ax = Ok u /\ forall s, u = Some s <-> In s L /\ above 2 lo hi ax c s) ->
    (forall s d, In s cs -> lookup ds s = Some d -> b_nbrs (ds_data d) = []) ->
    exists ds' c' v, lineout pfloat fuel ds use c cut z comp
      = Ok (ds', c', grid2 cut (stretch (X c cut) (i c) 2) (unique_Q (List.concat (List.map (fun c => X c ax) (c :: cs)))), v) /\
      sim ds0 ds' /\ shape v = line_shape (total (List.map (fun c => N c ax) (c :: cs))) /\
      flat v = List.concat (List.map (fun c => flat (T c)) (c :: cs)).
  Proof.
    intros Hf Sm H Hon Hst Hu Hnb. unfold lineout.
    assert (Hc : on_line c) by now inversion Hon.
    destruct (step_ok ds c H Hc) as [E1 E2]. rewrite E1. cbn [bind fst snd]. rewrite E2. cbn [bind].
    destruct (follow_ok cs fuel ds c (stretch (X c cut) (i c) 2) (X c ax) (rs c) Hf Sm H Hon Hst Hu Hnb)
      as (ds' & c' & E3 & S'). rewrite E3. cbn [bind]. 
    change (unique_axis (1 - cut)) with (unique_axis ax).
    pose proof (unique_axis_ok cut (stretch (X c cut) (i c) 2) (X c ax ++ List.concat (List.map (fun c => X c ax) cs)) Hcut) as EA.
    fold ax in EA. rewrite EA. cbn [bind].
    set (vl := rs c ++ List.concat (List.map rs cs)).
    assert (Evl : vl = List.concat (List.map rs (c :: cs))) by reflexivity.
    assert (Hlen : length vl = total (List.map (fun c => N c ax) (c :: cs))).
    { rewrite Evl. rewrite (length_concat_total rs (fun c => N c ax) (c :: cs) 1); [lia|].
      intros x _. unfold rs, strips. rewrite map_length, seq_length. lia. }
    assert (Hflat : List.concat (List.map flat vl) = List.concat (List.map (fun c => flat (T c)) (c :: cs))).
    { rewrite Evl. clear - Hon HB Hcut Hks. induction Hon as [|x l Hx Hl IH]; [reflexivity|].
      cbn [List.map List.concat]. rewrite map_app, concat_app, IH. f_equal.
      unfold rs. apply strips_flat. now apply T_facts. }
    assert (Hshape : forall a, In a vl -> shape a = row_shape cut (length ks)).
    { intros a Ha. rewrite Evl in Ha. apply in_concat in Ha as (l & Hl & Ha). apply in_map_iff in Hl as (x & <- & _).
      unfold rs, strips in Ha. apply in_map_iff in Ha as (j & <- & _). reflexivity. }
    assert (Hne : vl <> []).
    { intros E0. rewrite E0 in Hlen. unfold total in Hlen. cbn [List.map fold_right length] in Hlen.
      destruct (ib_edges _ _ _ _ _ _ _ (HB c (proj1 Hc)) ax) as (_ & _ & P & _); [unfold ax; lia|].
      lia. }
    clearbody vl. unfold stack1. rewrite (stack_ok vl _ Hne Hshape). cbn [bind shape flat].
    unfold line_shape, row_shape. rewrite Hlen, Hflat.
    destruct (cut =? 0)%nat eqn:E0; eexists _, _, _; split; try reflexivity; cbn [shape flat]; auto.
  Qed.

  (** *** Where the line starts *)
  Context (q : Q) (Hq : pfloat z = Some q).

  Lemma bound_ok ds r up k : holds ds -> In r L -> (k < 2)%nat ->
    exists x, bound ds r up k = Ok x /\ x == (if up then hi r k else lo r k).
  Proof.
    intros H Hr Hk. destruct (holds_at ds r H Hr) as (b & Eb & ED). unfold bound. rewrite Eb. cbn [bind]. rewrite ED.
    destruct (ib_bounds _ _ _ _ _ _ _ (HB r Hr)) as (l0 & l1 & u0 & u1 & -> & B1 & B2 & B3 & B4). cbn [bind fst snd].
    destruct up, k as [|[|k]]; try lia; cbn; eexists; (split; [reflexivity|auto]).
  Qed.

  Lemma fold_qmin_spec l x : (forall y, In y (x :: l) -> fold_left qmin l x <= y) /\ In (fold_left qmin l x) (x :: l).
  Proof.
    revert x. induction l as [|a l IH]; intros x; cbn [fold_left].
    - split; [|now left]. intros y [->|[]]. apply Qle_refl.
    - destruct (IH (qmin x a)) as [I1 I2].
      assert (Hm : qmin x a <= x /\ qmin x a <= a /\ (qmin x a = x \/ qmin x a = a)).
      { unfold qmin. destruct (Qle_bool x a) eqn:E.
        - apply Qle_bool_iff in E. repeat split; auto; lra.
        - assert (~ x <= a) by (rewrite <- Qle_bool_iff; congruence). repeat split; auto; lra. }
      destruct Hm as (M1 & M2 & M3). split.
      + intros y [->|[->|Hy]].
        * apply Qle_trans with (qmin y a); [apply I1; now left|auto].
        * apply Qle_trans with (qmin x y); [apply I1; now left|auto].
        * apply I1. now right.
      + destruct I2 as [I2|I2]; [|right; now right]. rewrite <- I2.
        destruct M3 as [->| ->]; [now left|right; now left].
  Qed.

  Lemma lowest_ok ds k c : holds ds -> (k < 2)%nat -> In c L -> (forall s, In s L -> lo c k <= lo s k) ->
    exists x, lowest ds L k = Ok x /\ x == lo c k.
  Proof.
    intros H Hk Hc Hmin. unfold lowest.
    assert (E : exists bs, mapM (fun r => bound ds r false k) L = Ok bs /\ Forall2 (fun r x => x == lo r k) L bs).
    { clear Hc Hmin. assert (G : forall l, incl l L -> exists bs, mapM (fun r => bound ds r false k) l = Ok bs /\ Forall2 (fun r x => x == lo r k) l bs).
      { induction l as [|r l IH]; intros Hi; [exists []; split; [reflexivity|constructor]|].
        destruct (bound_ok ds r false k H) as (x & Ex & Hx); [apply Hi; now left|exact Hk|].
        destruct IH as (bs & Eb & Fb); [intros y Hy; apply Hi; now right|].
        exists (x :: bs). cbn [mapM]. rewrite Ex. cbn [bind]. rewrite Eb. split; [reflexivity|]. constructor; auto. }
      apply G. apply incl_refl. }
    destruct E as (bs & -> & F). cbn [bind].
    destruct bs as [|x bs].
    { apply Forall2_length in F. apply length_zero_iff_nil in F. rewrite F in Hc. destruct Hc. }
    exists (fold_left qmin bs x). split; [reflexivity|].
    destruct (fold_qmin_spec bs x) as [I1 I2]. remember (x :: bs) as l eqn:El.
    apply Qle_antisym.
    - apply In_nth_error in Hc as [n Hn]. destruct (nth_error l n) as [y|] eqn:Ey.
      + pose proof (Forall2_nth_error _ _ _ _ _ _ F Hn Ey) as Hy. cbn in Hy. rewrite <- Hy. apply I1. eapply nth_error_In; eauto.
      + apply nth_error_None in Ey. apply Forall2_length in F. assert (n < length L)%nat by (apply nth_error_Some; congruence). lia.
    - apply In_nth_error in I2 as [n Hn]. destruct (nth_error L n) as [s|] eqn:Es.
      + pose proof (Forall2_nth_error _ _ _ _ _ _ F Es Hn) as Hy. cbn in Hy. rewrite Hy. apply Hmin. eapply nth_error_In; eauto.
      + apply nth_error_None in Es. apply Forall2_length in F. assert (n < length l)%nat by (apply nth_error_Some; congruence). lia.
  Qed.

  Lemma lowest_some ds k : holds ds -> (k < 2)%nat -> L <> [] -> exists x, lowest ds L k = Ok x.
  Proof.
    intros H Hk Hne. unfold lowest.
    assert (G : forall l, incl l L -> exists bs, mapM (fun r => bound ds r false k) l = Ok bs /\ length bs = length l).
    { induction l as [|r l IH]; intros Hi; [exists []; auto|].
      destruct (bound_ok ds r false k H) as (x & Ex & Hx); [apply Hi; now left|exact Hk|].
      destruct IH as (bs & Eb & Fb); [intros y Hy; apply Hi; now right|].
      exists (x :: bs). cbn [mapM]. rewrite Ex. cbn [bind]. rewrite Eb. cbn. auto. }
    destruct (G L (incl_refl _)) as (bs & -> & Hl). cbn [bind]. destruct bs as [|x bs]; [|eauto].
    symmetry in Hl. apply length_zero_iff_nil in Hl. contradiction.
  Qed.

  (** The blocks the search accepts. *)
  Definition starts (low : Q) (r : ref) : Prop := lo r cut <= q /\ q <= hi r cut /\ lo r ax == low.

  Lemma find_block_ok ds low c : holds ds -> In c L -> starts low c -> (forall s, In s L -> starts low s -> s = c) ->
    forall block, find_block pfloat ds L cut z low block = Ok (Some c).
  Proof.
    intros H Hc Hs Hun.
    assert (G : forall l block, incl l L -> In c l \/ block = Some c -> find_block pfloat ds l cut z low block = Ok (Some c)).
    { induction l as [|r l IH]; intros block Hi Hor; cbn [find_block].
      - destruct Hor as [[]| ->]. reflexivity.
      - assert (Hr : In r L) by (apply Hi; now left).
        destruct (bound_ok ds r false cut H Hr Hcut) as (x & -> & Hx).
        destruct (bound_ok ds r true cut H Hr Hcut) as (y & Ey & Hy).
        destruct (bound_ok ds r false (1 - cut) H Hr) as (w & Ew & Hw); [lia|].
        cbn [bind]. rewrite Hq, Ey. cbn [bind]. rewrite Ew. cbn [bind].
        assert (Hhere : Qle_bool x q && Qle_bool q y && Qeq_bool w low = true <-> starts low r).
        { rewrite !andb_true_iff, !Qle_bool_iff, Qeq_bool_iff. unfold starts, ax. cbn in Hx, Hy, Hw. rewrite Hx, Hy, Hw. tauto. }
        apply IH; [intros s Hs'; apply Hi; now right|].
        destruct (Qle_bool x q && Qle_bool q y && Qeq_bool w low).
        + right. f_equal. apply Hun; [exact Hr|]. now apply Hhere.
        + destruct Hor as [[->|Hin]|Hb]; [|now left|now right]. exfalso.
          apply Hhere in Hs. discriminate. }
    intros block. apply G; [apply incl_refl|now left].
  Qed.

  Lemma find_block_none ds low : holds ds -> (forall s, In s L -> ~ starts low s) ->
    forall block, find_block pfloat ds L cut z low block = Ok block.
  Proof.
    intros H Hno0.
    assert (G : forall l block, incl l L -> find_block pfloat ds l cut z low block = Ok block).
    { induction l as [|r l IH]; intros block Hi; cbn [find_block]; [reflexivity|].
      assert (Hr : In r L) by (apply Hi; now left).
      destruct (bound_ok ds r false cut H Hr Hcut) as (x & -> & Hx).
      destruct (bound_ok ds r true cut H Hr Hcut) as (y & Ey & Hy).
      destruct (bound_ok ds r false (1 - cut) H Hr) as (w & Ew & Hw); [lia|].
      cbn [bind]. rewrite Hq, Ey. cbn [bind]. rewrite Ew. cbn [bind].
      replace (Qle_bool x q && Qle_bool q y && Qeq_bool w low) with false.
      - apply IH. intros s Hs'; apply Hi; now right.
      - symmetry. apply not_true_iff_false. rewrite !andb_true_iff, !Qle_bool_iff, Qeq_bool_iff. intros [[P1 P2] P3].
        cbn in Hx, Hy, Hw. apply (Hno0 r Hr). unfold starts, ax. rewrite Hx in P1. rewrite Hy in P2. rewrite Hw in P3. auto. }
    intros block. apply G, incl_refl.
  Qed.
End Line.

Lemma lookup_deactivate {B} (L : list ref) (ds : dspace B) r :
  lookup (fold_left (fun ds s => modify ds s (set_status false)) L ds) r
  = if in_dec ref_eq_dec r L then option_map (set_status false) (lookup ds r) else lookup ds r.
Proof.
  revert ds. induction L as [|s L IH]; intros ds; cbn [fold_left].
  - destruct (in_dec ref_eq_dec r []) as [[]|]; reflexivity.
  - rewrite IH, lookup_modify.
    destruct (in_dec ref_eq_dec r L) as [H1|H1], (in_dec ref_eq_dec r (s :: L)) as [H2|H2], (ref_eq_dec r s) as [->|H3];
      try reflexivity.
    + destruct (lookup ds s); reflexivity.
    + exfalso. apply H2. now right.
    + exfalso. apply H2. now right.
    + destruct H2 as [->|H2]; [congruence|contradiction].
    + exfalso. apply H2. now left.
Qed.

Lemma lens_deactivate {B} (L : list ref) (ds : dspace B) t :
  lens (fold_left (fun ds s => modify ds s (set_status false)) L ds) t = lens ds t.
Proof.
  revert ds. induction L as [|s L IH]; intros ds; cbn [fold_left]; [reflexivity|].
  rewrite IH. unfold lens. apply length_modify.
Qed.
