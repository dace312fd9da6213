(** * C107: loading a gyrokinetic distribution function *)
From Coq Require Import String List Arith ZArith Reals Lia Lra Bool.
From Verif Require Import Prelude PreludeFacts NdArray Gkyl_Model Dg_Poly Dg_TabI Dg_Model Dg_Spec Dg_Gram Dg_Sem Dg_Props Dg_Props2 Dg_Props3 Dg_Props5 Dg_Props8
  Ev_Model Tools_Arr Gk_Model Gk_Props5 Info_Props Distf_Model.
Import ListNotations.
Open Scope string_scope.
Open Scope list_scope.
Open Scope nat_scope.

(** ** Specification *)

(** Points per cell: two unless another number is asked for. *)
Definition points (interp : option nat) (n : nat) : Prop := interp = None /\ n = 2 \/ interp = Some n /\ 2 <= n.

(** Dimensions of position and velocity space of a gyrokinetic model. *)
Definition gk_dims (cdim vdim : nat) : Prop := cdim = 1 /\ (vdim = 1 \/ vdim = 2) \/ (cdim = 2 \/ cdim = 3) /\ vdim = 2.

(** [e] are the edges of cells with the centres [c]: inner edges are halfway between
    centres, and the outer centres halfway between their edges. *)
Definition edges (c e : list R) : Prop :=
  length e = S (length c) /\
  (forall i, 0 < i < length c -> (nth i e 0 = (nth (i - 1)%nat c 0 + nth i c 0) / 2)%R) /\
  (nth 0 c 0 = (nth 0 e 0 + nth 1 e 0) / 2)%R /\
  (nth (length c - 1)%nat c 0 = (nth (length c - 1)%nat e 0 + nth (length c) e 0) / 2)%R.

(** Name of a file of a simulation or one of its blocks. *)
Definition sim (name : string) (block : option Z) : string :=
  match block with Some b => name ++ "_b" ++ show_Z b | None => name end.
Definition given (o : option string) (s : string) : string := match o with Some f => f | None => s end.
Definition frame_file (name species suffix : string) (block : option Z) (frame : Z) : string :=
  sim name block ++ "-" ++ species ++ "_" ++ (if String.eqb suffix "" then "" else suffix ++ "_") ++ show_Z frame ++ ".gkyl".

(** ** Proofs *)

Lemma filter_all {A} (f : A -> bool) l : Forall (fun x => f x = true) l -> List.filter f l = l.
Proof. induction 1 as [|x l Hx _ IH]; [reflexivity|]. cbn. now rewrite Hx, IH. Qed.

Lemma refined_app a b n m : length a = length n -> refined_shape (a ++ b) (n ++ m) = refined_shape a n ++ refined_shape b m.
Proof. revert n. induction a as [|x a IH]; intros [|y n] L; cbn in L; try discriminate; [reflexivity|]. unfold refined_shape in *. cbn [app combine List.map]. f_equal. apply IH. lia. Qed.

Lemma sub_app n m i j k l : length n = length i -> length n = length k -> sub_index (n ++ m) (i ++ j) (k ++ l) = sub_index n i k ++ sub_index m j l.
Proof.
  unfold sub_index. revert i k. induction n as [|x n IH]; intros [|y i] [|z k] L L'; cbn in L, L'; try discriminate; [reflexivity|]. cbn [app combine List.map]. f_equal. apply IH; lia.
Qed.

Lemma centres_app n m k l : length n = length k -> centres (n ++ m) (k ++ l) = centres n k ++ centres m l.
Proof. unfold centres. revert k. induction n as [|x n IH]; intros [|y k] L; cbn in L; try discriminate; [reflexivity|]. cbn [app map2]. f_equal. apply IH. lia. Qed.

Lemma refined_ge2 cells ns : length cells = length ns -> Forall (fun c => 0 < c) cells -> Forall (fun n => 2 <= n) ns -> Forall (fun m => 2 <= m) (refined_shape cells ns).
Proof.
  unfold refined_shape. intros L Hc. revert ns L. induction Hc as [|c cells Hc _ IH]; intros [|n ns] L Hn; cbn in L; try discriminate; [constructor|]. inversion_clear Hn as [|? ? Hn1 Hn2]. cbn [combine List.map]. constructor; [cbn; nia|]. apply IH; [lia|exact Hn2].
Qed.

Lemma squeeze_comp (a : nda R) sh : shape a = sh ++ [1] -> Forall (fun m => 2 <= m) sh -> shape (squeeze a) = sh.
Proof.
  intros E H. unfold squeeze. cbn [shape]. rewrite E, filter_app. cbn. rewrite app_nil_r. apply filter_all. eapply Forall_impl; [|exact H]. intros m Hm. cbv beta in Hm. destruct (Nat.eqb_spec m 1); [subst; lia|reflexivity].
Qed.

Lemma wf_squeeze (a : nda R) sh : wf a -> shape a = sh ++ [1] -> Forall (fun m => 2 <= m) sh -> wf (squeeze a).
Proof. intros Wa Ea Ha. unfold wf in *. rewrite (squeeze_comp a sh Ea Ha). cbn [squeeze flat]. rewrite Wa, Ea, prod_app. unfold prod at 2. cbn. lia. Qed.

Lemma ravel_ones sh x k : in_range sh x -> ravel (sh ++ repeat 1 k) (x ++ repeat 0 k) = ravel sh x.
Proof.
  unfold in_range. induction 1 as [|i n x sh H _ IH].
  - cbn [app]. induction k as [|k IHk]; [reflexivity|]. cbn [repeat ravel]. rewrite IHk. reflexivity.
  - cbn [app ravel]. destruct (i <? n); [|reflexivity]. rewrite IH, prod_app. replace (prod (repeat 1 k)) with 1; [|clear; induction k as [|k IH]; [reflexivity|]; unfold prod in *; cbn; lia].
    rewrite Nat.mul_1_r. reflexivity.
Qed.

Lemma get_squeeze (a : nda R) sh x : shape a = sh ++ [1] -> Forall (fun m => 2 <= m) sh -> in_range sh x -> get (squeeze a) x = get a (x ++ [0]).
Proof. intros E H Hx. unfold get. rewrite (squeeze_comp a sh E H), E. change [1] with (repeat 1 1). change [0] with (repeat 0 1). rewrite ravel_ones by exact Hx. reflexivity. Qed.

Lemma bdims_ones s : bdims s (repeat 1 (length s)) = Ok s.
Proof. induction s as [|a s IH]; [reflexivity|]. cbn [length repeat bdims]. unfold bdim. destruct (Nat.eqb_spec a 1) as [->|]; cbn [bind Nat.eqb]; rewrite IH; reflexivity. Qed.

Lemma bidx_ones k x : length x = k -> bidx (repeat 1 k) x = repeat 0 k.
Proof. intros <-. unfold bidx. induction x as [|a x IH]; [reflexivity|]. cbn [length repeat map2 Nat.eqb]. now rewrite IH. Qed.

(** Multiplication by an array on the first axes. *)
Lemma times_front f j s1 s2 : wf f -> wf j -> shape f = s1 ++ s2 -> shape j = s1 ->
  exists p, rb Rmult f (trailing (length (shape f) - length (shape j)) j) = Ok p /\ wf p /\ shape p = s1 ++ s2 /\
    forall x y, in_range s1 x -> in_range s2 y -> exists a b, get f (x ++ y) = Some a /\ get j x = Some b /\ get p (x ++ y) = Some (a * b)%R.
Proof.
  intros Wf Wj Ef Ej. rewrite Ef, Ej, app_length. replace (length s1 + length s2 - length s1) with (length s2) by lia.
  unfold rb, broadcast. unfold trailing. cbn [shape]. rewrite Ef, Ej, !app_length, repeat_length, Nat.max_id. unfold pad_front. rewrite !app_length, repeat_length, Nat.sub_diag. cbn [repeat app skipn].
  rewrite (bdims_app s1 s2 s1 (repeat 1 (length s2)) s1 s2 eq_refl (bdims_same s1) (bdims_ones s2)). cbn [bind]. eexists. split; [reflexivity|]. split; [apply wf_tabulate|]. split; [reflexivity|].
  intros x y Hx Hy. assert (Hxy : in_range (s1 ++ s2) (x ++ y)) by (apply Forall2_app; assumption).
  destruct (get_in f (x ++ y) Wf) as (a & Ea); [now rewrite Ef|]. destruct (get_in j x Wj) as (b & Eb); [now rewrite Ej|]. exists a, b. split; [exact Ea|]. split; [exact Eb|].
  rewrite get_tabulate by exact Hxy. rewrite bidx_same by exact Hxy. rewrite Ea. rewrite bidx_app by (symmetry; apply in_range_length; exact Hx). rewrite bidx_same by exact Hx. rewrite bidx_ones by (apply in_range_length; exact Hy).
  replace (get _ _) with (Some b); [reflexivity|]. rewrite <- Eb. unfold get. cbn [shape flat]. rewrite Ej, ravel_ones by exact Hx. reflexivity.
Qed.

Lemma get_new_axis (p : nda R) x : in_range (shape p) x -> get (new_axis p) (x ++ [0]) = get p x.
Proof. intros Hx. unfold get, new_axis. cbn [shape flat]. change [1] with (repeat 1 1). change [0] with (repeat 0 1). now rewrite ravel_ones. Qed.

Lemma init_modal (d : dgdata (F := R)) cells nc s b interp n fs : shape (dd_values d) = cells ++ [nc] -> In (s, b) [("ms", "serendipity"); ("gkhyb", "gkhybrid")] ->
  right_dims (length cells) b -> interp_functions (length cells) 1 true b = Ok fs -> points interp n ->
  modal_init d (Some 1) (Some s) interp = Ok (mk_ginterp (length cells) 1 b n (length fs)).
Proof.
  intros E Hs D Hf Hn. unfold modal_init. cbn [bind]. unfold dd_dims. rewrite E, removelast_snoc. pose proof (modal_size _ _ _ _ D (le_n 1) Hf) as HN.
  assert (En : match interp with Some (S k) => S k | _ => 2 end = n). { destruct Hn as [(-> & ->)|(-> & H)]; [reflexivity|]. destruct n; [lia|reflexivity]. }
  destruct Hs as [H|[H|[]]]; injection H as <- <-; unfold modal_basis_name; cbn [String.eqb Ascii.eqb Bool.eqb bind]; destruct (length cells =? 1); cbn [andb]; rewrite En, HN; reflexivity.
Qed.

Lemma gk_refine cdim vdim n : gk_dims cdim vdim -> refine (cdim + vdim) n "gkhybrid" = repeat n cdim ++ S n :: repeat n (vdim - 1).
Proof. intros [(-> & [-> | ->])|([-> | ->] & ->)]; reflexivity. Qed.

Lemma sub_line n a i k : forall L, a < L -> sub_index (repeat n L) (set_nth a i (repeat 0 L)) (set_nth a k (repeat 0 L)) = set_nth a (i * n + k) (repeat 0 L).
Proof.
  assert (Z : forall L, sub_index (repeat n L) (repeat 0 L) (repeat 0 L) = repeat 0 L). { induction L as [|L IH]; [reflexivity|]. unfold sub_index in *. cbn [repeat combine List.map]. now rewrite IH. }
  revert a. induction a as [|a IH]; intros [|L] H; try lia.
  - cbn [repeat set_nth]. unfold sub_index in *. cbn [combine List.map]. rewrite Z. reflexivity.
  - cbn [repeat set_nth]. unfold sub_index in *. cbn [combine List.map]. rewrite IH by lia. reflexivity.
Qed.

Lemma line_range a i sh : a < length sh -> i < nth a sh 0 -> Forall (fun c => 0 < c) sh -> in_range sh (set_nth a i (repeat 0 (length sh))).
Proof.
  unfold in_range. revert a. induction sh as [|c sh IH]; intros a Ha Hi Hp; [cbn in Ha; lia|]. inversion_clear Hp as [|? ? Hc Hs]. destruct a as [|a]; cbn [length repeat set_nth].
  - constructor; [exact Hi|]. clear -Hs. induction Hs; cbn; constructor; assumption.
  - constructor; [exact Hc|]. apply IH; [cbn in Ha; lia|exact Hi|exact Hs].
Qed.

Lemma nth_error_set {A} (l : list A) k x i : k < length l -> nth_error (set_nth k x l) i = if i =? k then Some x else nth_error l i.
Proof. revert k i. induction l as [|a l IH]; intros k i H; [cbn in H; lia|]. destruct k as [|k], i as [|i]; cbn; try reflexivity. apply IH. cbn in H. lia. Qed.

Lemma fold_err {A B} (f : res A -> B -> res A) e l : (forall b, f (Err e) b = Err e) -> fold_left f l (Err e) = Err e.
Proof. intros H. induction l as [|b l IH]; [reflexivity|]. cbn [fold_left]. now rewrite H. Qed.

Lemma grid_length root (d : dgdata (F := R)) g gr : modal_grid rops rdot evalR root d g = Ok gr -> length gr = gi_dims g.
Proof.
  unfold modal_grid. destruct (String.eqb (dd_grid_type d) "c2p").
  - intros H. apply mapM_ok, Forall2_length in H. rewrite seq_length in H. now symmetry.
  - intros H. apply bind_ok in H as (cm & _ & H). apply bind_ok in H as (ns & _ & H). apply bind_ok in H as (l & El & H).
    assert (Ll : length l = gi_dims g). { unfold make_1d_grids in El. apply mapM_ok, Forall2_length in El. rewrite seq_length in El. now symmetry. }
    destruct (String.eqb (dd_grid_type d) "c2p_vel"); [|injection H as <-; now rewrite map_length].
    revert H. generalize (List.map line_nda l) (map_length (line_nda (F := R)) l) (seq 0 (dd_nvdim d)). intros cur Hc vs. rewrite Ll in Hc. clear El Ll l. revert cur Hc.
    induction vs as [|v vs IH]; intros cur Hc; cbn [fold_left].
    + intros [= <-]. exact Hc.
    + cbn [bind]. destruct (nth_error (dd_grid d) (dd_ncdim d + v)); [|rewrite fold_err; [discriminate|reflexivity]]. destruct (nth_error ns (dd_ncdim d + v)); [|rewrite fold_err; [discriminate|reflexivity]].
      match goal with |- fold_left _ _ ?e = Ok _ -> _ => destruct e as [cur'|e'] eqn:Ec end; [|rewrite fold_err; [discriminate|reflexivity]]. apply bind_ok in Ec as (line & _ & Ec). injection Ec as <-. apply IH. now rewrite set_nth_len.
Qed.

Section Load.
  Context (read : string -> option string -> res (dgdata (F := R))) (root : nat -> nat -> nat).
  Context (name species : string) (frame : Z) (tag suffix : string) (block : option Z) (interp : option nat) (fl : distf_files).

  (** The three files, with the shapes that fit each other. *)
  Record fits (vel : bool) (n : nat) (cc vc : list nat) (nc m nt : nat) (fs ft : list pexp) (jf jv jt : dgdata (F := R)) : Prop := {
    h_points : points interp n;
    h_dims : 1 <= length cc /\ 2 <= length cc + length vc <= 5;
    h_cells : Forall (fun c => 0 < c) (cc ++ vc);
    h_fs : interp_functions (length cc + length vc) 1 true "gkhybrid" = Ok fs;
    h_ft : interp_functions (length cc) 1 true "serendipity" = Ok ft;
    h_jf : read (given (fl_jf fl) (frame_file name species suffix block frame))
             (if vel then Some (given (fl_mapc2p_vel fl) (sim name block ++ "-" ++ species ++ "_mapc2p_vel.gkyl")) else None) = Ok jf /\
           shape (dd_values jf) = (cc ++ vc) ++ [nc] /\ wf (dd_values jf) /\ length fs <= nc;
    h_jv : read (given (fl_jacobvel fl) (sim name block ++ "-" ++ species ++ "_jacobvel.gkyl")) None = Ok jv /\
           shape (dd_values jv) = (cc ++ vc) ++ [m] /\ wf (dd_values jv) /\ (m = nc \/ m = 1);
    h_jt : read (given (fl_jacobtot_inv fl) (sim name block ++ "-jacobtot_inv.gkyl")) None = Ok jt /\
           shape (dd_values jt) = cc ++ [nt] /\ wf (dd_values jt) /\ length ft <= nt }.

  (** What the values of the result are. *)
  Definition product (n : nat) (cc vc : list nat) (nc m : nat) (fs ft : list pexp) (jf jv jt : dgdata (F := R)) (w : nda R) : Prop :=
    let nx := repeat n (length cc) in let nv := S n :: repeat n (length vc - 1) in
    wf w /\ shape w = refined_shape cc nx ++ refined_shape vc nv ++ [1] /\
    forall i j k l, in_range cc i -> in_range vc j -> in_range nx k -> in_range nv l ->
      exists u t, length u = length fs /\ length t = length ft /\
        (forall c, c < length fs -> exists a b, get (dd_values jf) (i ++ j ++ [c]) = Some a /\ get (dd_values jv) (i ++ j ++ [if m =? 1 then 0 else c]) = Some b /\ nth_error u c = Some (a / b)%R) /\
        (forall c, c < length ft -> nth_error t c = get (dd_values jt) (i ++ [c])) /\
        get w (sub_index nx i k ++ sub_index nv j l ++ [0]) = Some (expansion u fs (centres nx k ++ centres nv l) * expansion t ft (centres nx k))%R.

  (** What is done with the product and the grid. *)
  Definition finish (vel nu p : bool) (gr : list (nda R)) (ty : string) (w : nda R) : res distf :=
    if nu then let* g := apply_mc2nu_grid read root gr (given (fl_mc2nu fl) (sim name block ++ "-mc2nu_pos_deflated.gkyl")) interp in
               Ok (mk_distf tag g w (if vel then "c2p_vel + mc2nu" else "mc2nu"))
    else if p then let* g := apply_mc2nu_grid read root gr (given (fl_mapc2p fl) (sim name block ++ "-mapc2p_deflated.gkyl")) interp in
               Ok (mk_distf tag g w (if vel then "c2p_vel + mapc2p" else "mapc2p"))
    else Ok (mk_distf tag gr w ty).

  Lemma prep vel nu p n cc vc nc m nt fs ft jf jv jt gr v0 gt w0 :
    fits vel n cc vc nc m nt fs ft jf jv jt ->
    interpolate1 root jf "gkhyb" interp [0] = Ok (gr, v0) -> interpolate1 root jt "ms" interp [0] = Ok (gt, w0) ->
    let ns := refine (length cc + length vc) n "gkhybrid" in let nx := repeat n (length cc) in
    exists q f j,
      (forall x c, in_range (cc ++ vc) x -> c < nc -> exists a b, get (dd_values jf) (x ++ [c]) = Some a /\ get (dd_values jv) (x ++ [if m =? 1 then 0 else c]) = Some b /\ get q (x ++ [c]) = Some (a / b)%R) /\
      (wf f /\ shape f = refined_shape (cc ++ vc) ns ++ [1] /\
       forall i k, in_range (cc ++ vc) i -> in_range ns k -> exists u, length u = length fs /\ (forall c, c < length fs -> nth_error u c = get q (i ++ [c])) /\ get f (sub_index ns i k ++ [0]) = Some (expansion u fs (centres ns k))) /\
      (wf j /\ shape j = refined_shape cc nx ++ [1] /\
       forall i k, in_range cc i -> in_range nx k -> exists t, length t = length ft /\ (forall c, c < length ft -> nth_error t c = get (dd_values jt) (i ++ [c])) /\ get j (sub_index nx i k ++ [0]) = Some (expansion t ft (centres nx k))) /\
      load_gk_distf read root name species frame tag suffix vel nu p block interp fl =
        let* w := rb Rmult (squeeze f) (trailing (length (shape (squeeze f)) - length (shape (squeeze j))) (squeeze j)) in
        finish vel nu p gr (dd_grid_type jf) (new_axis w).
  Proof.
    intros H Ejf Ejt. destruct H as [Hn Hd Hc Hfs Hft (Rjf & Sjf & Wjf & Ljf) (Rjv & Sjv & Wjv & Lm) (Rjt & Sjt & Wjt & Ljt)].
    assert (N2 : 2 <= n) by (destruct Hn as [(_ & ->)|(_ & ?)]; lia).
    assert (Lcv : length (cc ++ vc) = length cc + length vc) by apply app_length. rewrite <- Lcv in *. intros ns nx.
    assert (Dg : right_dims (length (cc ++ vc)) "gkhybrid"). { unfold right_dims. split; [|split; [intros _|intros E; exfalso]]; lia. }
    assert (Ds : right_dims (length cc) "serendipity"). { unfold right_dims. split; [lia|]. split; [discriminate|auto]. }
    (* the quotient *)
    assert (Q : exists q, rb Rdiv (dd_values jf) (dd_values jv) = Ok q /\ wf q /\ shape q = (cc ++ vc) ++ [nc] /\
      forall x c, in_range (cc ++ vc) x -> c < nc -> exists a b, get (dd_values jf) (x ++ [c]) = Some a /\ get (dd_values jv) (x ++ [if m =? 1 then 0 else c]) = Some b /\ get q (x ++ [c]) = Some (a / b)%R).
    { set (rd := fun (z : nda R) x c => match get z (x ++ [c]) with Some r => r | None => 0%R end).
      assert (Sh : forall z k, wf z -> shape z = (cc ++ vc) ++ [k] -> shows (cc ++ vc) k z (rd z)).
      { intros z k Wz Ez. split; [exact Wz|]. split; [exact Ez|]. intros x c Hx Hk. unfold rd. destruct (get_in z (x ++ [c]) Wz) as (r & Er); [|now rewrite Er]. rewrite Ez. apply Forall2_app; [exact Hx|]. constructor; [exact Hk|constructor]. }
      pose proof (Sh _ _ Wjf Sjf) as S1. pose proof (Sh _ _ Wjv Sjv) as S2.
      assert (Eb : bdim nc m = Ok nc). { unfold bdim. destruct Lm as [-> | ->]; [now rewrite Nat.eqb_refl|]. destruct (Nat.eqb_spec nc 1) as [->|]; reflexivity. }
      destruct (yields_rb_gen Rdiv _ _ (cc ++ vc) nc m nc _ _ S1 S2 Eb) as (q & Eq & Wq & Sq & Vq). exists q. split; [exact Eq|]. split; [exact Wq|]. split; [exact Sq|].
      intros x c Hx Hk. assert (Hk' : (if m =? 1 then 0 else c) < m) by (destruct (Nat.eqb_spec m 1); destruct Lm; lia).
      exists (rd (dd_values jf) x c), (rd (dd_values jv) x (if m =? 1 then 0 else c)). split; [apply S1; assumption|]. split; [apply S2; assumption|]. rewrite (Vq x c Hx Hk). do 3 f_equal.
      destruct (Nat.eqb_spec nc 1); [f_equal; lia|reflexivity]. }
    destruct Q as (q & Eq & Wq & Sq & Vq).
    set (d := mk_dgdata q (dd_grid jf) (dd_grid_type jf) (dd_basis jf) (dd_poly jf) (dd_ncdim jf) (dd_nvdim jf)).
    set (g := mk_ginterp (length (cc ++ vc)) 1 "gkhybrid" n (length fs)).
    set (gt' := mk_ginterp (length cc) 1 "serendipity" n (length ft)).
    assert (I1 : modal_init jf (Some 1) (Some "gkhyb") interp = Ok g) by (apply (init_modal jf _ nc); [exact Sjf|cbn; tauto|exact Dg|exact Hfs|exact Hn]).
    assert (I2 : modal_init d (Some 1) (Some "gkhyb") interp = Ok g) by (apply (init_modal d _ nc); [exact Sq|cbn; tauto|exact Dg|exact Hfs|exact Hn]).
    assert (I3 : modal_init jt (Some 1) (Some "ms") interp = Ok gt') by (apply (init_modal jt _ nt); [exact Sjt|cbn; tauto|exact Ds|exact Hft|exact Hn]).
    unfold interpolate1 in Ejf, Ejt. rewrite I1 in Ejf. rewrite I3 in Ejt. cbn [bind] in Ejf, Ejt.
    assert (Egr : modal_grid rops rdot evalR root d g = Ok gr).
    { change (modal_grid rops rdot evalR root d g) with (modal_grid rops rdot evalR root jf g). unfold modal_interpolate in Ejf. apply bind_ok in Ejf as (v1 & _ & Ejf). apply bind_ok in Ejf as (g1 & Eg1 & Ejf). injection Ejf as -> _. exact Eg1. }
    assert (Fx : refine (length cc) n "serendipity" = nx) by (apply refine_plain; discriminate).
    destruct (C36_interpolated_value d g [0] (cc ++ vc) nc fs) as (f & Ef & Wf & Sf & Vf); try assumption; try reflexivity.
    { split; apply Dg. } { cbn. discriminate. } { discriminate. } { intros c [<-|[]]. lia. }
    cbn [gi_interp gi_basis g] in Sf, Vf. fold ns in Sf, Vf.
    destruct (C36_interpolated_value jt gt' [0] cc nt ft) as (j & Ej & Wj & Sj & Vj); try assumption; try reflexivity.
    { split; [apply Ds|discriminate]. } { cbn. discriminate. } { discriminate. } { intros c [<-|[]]. lia. }
    cbn [gi_interp gi_basis gt'] in Sj, Vj. rewrite Fx in Sj, Vj. cbn [length] in Sf, Sj.
    assert (w0 = j) as ->. { unfold modal_interpolate in Ejt. rewrite Ej in Ejt. cbn [bind] in Ejt. apply bind_ok in Ejt as (? & _ & Ejt). now injection Ejt. }
    exists q, f, j. split; [exact Vq|]. split; [|split].
    - split; [exact Wf|]. split; [exact Sf|]. intros i k Hi Hk. exact (Vf 0 0 i k eq_refl Hi Hk).
    - split; [exact Wj|]. split; [exact Sj|]. intros i k Hi Hk. exact (Vj 0 0 i k eq_refl Hi Hk).
    - unfold load_gk_distf. change (or_default (fl_jf fl) (jf_name name species suffix block frame)) with (given (fl_jf fl) (jf_name name species suffix block frame)).
      replace (jf_name name species suffix block frame) with (frame_file name species suffix block frame).
      2:{ unfold frame_file, jf_name, stem, infix. change (block_name name block) with (sim name block). rewrite !sapp_assoc. reflexivity. }
      change (block_name name block) with (sim name block). unfold or_default. fold (given (fl_mapc2p_vel fl) (sim name block ++ "-" ++ species ++ "_mapc2p_vel.gkyl")).
      fold (given (fl_jacobvel fl) (sim name block ++ "-" ++ species ++ "_jacobvel.gkyl")). fold (given (fl_jacobtot_inv fl) (sim name block ++ "-jacobtot_inv.gkyl")).
      fold (given (fl_mc2nu fl) (sim name block ++ "-mc2nu_pos_deflated.gkyl")). fold (given (fl_mapc2p fl) (sim name block ++ "-mapc2p_deflated.gkyl")).
      rewrite Rjf, Rjv, Rjt. cbn [bind]. rewrite Eq. cbn [bind]. fold d. unfold interpolate1 at 1. rewrite I2. cbn [bind]. unfold modal_interpolate at 1. rewrite Ef, Egr. cbn [bind].
      unfold interpolate1 at 1. rewrite I3. cbn [bind]. rewrite Ejt. cbn [bind]. reflexivity.
  Qed.

  Lemma core vel nu p n cc vc nc m nt fs ft jf jv jt gr v0 gt w0 :
    fits vel n cc vc nc m nt fs ft jf jv jt -> gk_dims (length cc) (length vc) ->
    interpolate1 root jf "gkhyb" interp [0] = Ok (gr, v0) -> interpolate1 root jt "ms" interp [0] = Ok (gt, w0) ->
    exists w, product n cc vc nc m fs ft jf jv jt w /\
      load_gk_distf read root name species frame tag suffix vel nu p block interp fl = finish vel nu p gr (dd_grid_type jf) w.
  Proof.
    intros H Hd Ejf Ejt. destruct (prep vel nu p _ _ _ _ _ _ _ _ _ _ _ _ _ _ _ H Ejf Ejt) as (q & f & j & Vq & (Wf & Sf & Vf) & (Wj & Sj & Vj) & EL).
    destruct H as [Hn _ Hc _ _ (_ & _ & _ & Ljf) _ _]. assert (N2 : 2 <= n) by (destruct Hn as [(_ & ->)|(_ & ?)]; lia).
    pose proof Hc as Hc'. apply Forall_app in Hc' as (Hcc & Hvc). rewrite (gk_refine _ _ _ Hd) in *.
    set (nx := repeat n (length cc)) in *. set (nv := S n :: repeat n (length vc - 1)) in *.
    assert (Lnx : length cc = length nx) by (unfold nx; now rewrite repeat_length).
    assert (Lnv : length vc = length nv). { unfold nv. cbn [length]. rewrite repeat_length. unfold gk_dims in Hd. lia. }
    assert (Gx : Forall (fun n => 2 <= n) nx) by (apply Forall_forall; intros z Hz; apply repeat_spec in Hz; lia).
    assert (Gv : Forall (fun n => 2 <= n) nv). { constructor; [lia|]. apply Forall_forall; intros z Hz; apply repeat_spec in Hz; lia. }
    rewrite refined_app in Sf by exact Lnx. set (sx := refined_shape cc nx) in *. set (sv := refined_shape vc nv) in *.
    assert (G1 : Forall (fun m => 2 <= m) sx) by (apply refined_ge2; assumption). assert (G2 : Forall (fun m => 2 <= m) sv) by (apply refined_ge2; assumption).
    assert (G12 : Forall (fun m => 2 <= m) (sx ++ sv)) by (apply Forall_app; auto).
    destruct (times_front (squeeze f) (squeeze j) sx sv) as (w & Ew & Ww & Sw & Vw); [eapply wf_squeeze; eauto|eapply wf_squeeze; eauto|now apply squeeze_comp|now apply squeeze_comp|].
    exists (new_axis w). split; [|rewrite EL, Ew; reflexivity]. split; [|split].
    - unfold wf, new_axis in *. cbn [shape flat]. rewrite Ww, prod_app. unfold prod at 3. cbn. lia.
    - unfold new_axis. cbn [shape]. rewrite Sw, <- app_assoc. reflexivity.
    - fold nx nv. intros i jj k l Hi Hj Hk Hl.
      assert (Hij : in_range (cc ++ vc) (i ++ jj)) by (apply Forall2_app; assumption). assert (Hkl : in_range (nx ++ nv) (k ++ l)) by (apply Forall2_app; assumption).
      destruct (Vf (i ++ jj) (k ++ l) Hij Hkl) as (u & Lu & Vu & Gu). destruct (Vj i k Hi Hk) as (t & Lt & Vt & Gt).
      exists u, t. split; [exact Lu|]. split; [exact Lt|]. split; [|split].
      + intros c Hcf. rewrite (Vu c Hcf). destruct (Vq (i ++ jj) c Hij ltac:(lia)) as (a & b & Ea & Eb & Eab). exists a, b. rewrite !app_assoc. auto.
      + intros c Hcf. exact (Vt c Hcf).
      + assert (Rx : in_range sx (sub_index nx i k)) by (apply sub_index_in_range; assumption). assert (Rv : in_range sv (sub_index nv jj l)) by (apply sub_index_in_range; assumption).
        rewrite app_assoc, get_new_axis by (rewrite Sw; apply Forall2_app; assumption). destruct (Vw _ _ Rx Rv) as (a & b & Ea & Eb & ->).
        assert (Li : length nx = length i) by (rewrite <- Lnx; symmetry; now apply in_range_length). assert (Lk : length nx = length k) by (symmetry; now apply in_range_length).
        rewrite (get_squeeze f (sx ++ sv)) in Ea; [|exact Sf|exact G12|apply Forall2_app; assumption]. rewrite (get_squeeze j sx) in Eb; [|exact Sj|exact G1|exact Rx].
        rewrite <- sub_app in Ea by assumption. rewrite Gu in Ea. rewrite Gt in Eb. injection Ea as <-. injection Eb as <-. rewrite centres_app by exact Lk. reflexivity.
  Qed.

  (** Each value is the quotient of the frame by the velocity Jacobian, expanded in the
      cell at the centre of its part, times the expansion of the inverse total Jacobian
      at that place; the grid is that of interpolating the frame itself. *)
  Theorem C107_values vel n cc vc nc m nt fs ft jf jv jt gr v0 gt w0 :
    fits vel n cc vc nc m nt fs ft jf jv jt -> gk_dims (length cc) (length vc) ->
    interpolate1 root jf "gkhyb" interp [0] = Ok (gr, v0) -> interpolate1 root jt "ms" interp [0] = Ok (gt, w0) ->
    exists w, load_gk_distf read root name species frame tag suffix vel false false block interp fl = Ok (mk_distf tag gr w (dd_grid_type jf)) /\
      product n cc vc nc m fs ft jf jv jt w.
  Proof. intros H Hd Ejf Ejt. destruct (core vel false false _ _ _ _ _ _ _ _ _ _ _ _ _ _ _ H Hd Ejf Ejt) as (w & Hw & E). exists w. split; [exact E|exact Hw]. Qed.

  (** With one velocity dimension over two of position the parts per cell do not agree. *)
  Theorem C107_two_one vel nu p n cc vc nc m nt fs ft jf jv jt gr v0 gt w0 :
    fits vel n cc vc nc m nt fs ft jf jv jt -> length cc = 2 -> length vc = 1 ->
    interpolate1 root jf "gkhyb" interp [0] = Ok (gr, v0) -> interpolate1 root jt "ms" interp [0] = Ok (gt, w0) ->
    load_gk_distf read root name species frame tag suffix vel nu p block interp fl = Err ValueError.
  Proof.
    intros H Lc Lv Ejf Ejt. destruct (prep vel nu p _ _ _ _ _ _ _ _ _ _ _ _ _ _ _ H Ejf Ejt) as (q & f & j & Vq & (Wf & Sf & Vf) & (Wj & Sj & Vj) & EL).
    destruct H as [Hn _ Hc _ _ _ _ _]. assert (N2 : 2 <= n) by (destruct Hn as [(_ & ->)|(_ & ?)]; lia). rewrite EL. clear EL Vf Vj.
    destruct cc as [|c1 [|c2 [|]]]; try discriminate. destruct vc as [|c3 [|]]; try discriminate. cbn [app] in Hc.
    change (refined_shape _ _) with [c1 * n; c2 * S n; c3 * n] in Sf. change (refined_shape _ _) with [c1 * n; c2 * n] in Sj.
    pose proof (Forall_inv Hc) as P1. pose proof (Forall_inv (Forall_inv_tail Hc)) as P2. pose proof (Forall_inv (Forall_inv_tail (Forall_inv_tail Hc))) as P3. cbv beta in P1, P2, P3.
    assert (E1 : shape (squeeze f) = [c1 * n; c2 * S n; c3 * n]) by (apply squeeze_comp; [exact Sf|]; repeat constructor; nia).
    assert (E2 : shape (squeeze j) = [c1 * n; c2 * n]) by (apply squeeze_comp; [exact Sj|]; repeat constructor; nia).
    unfold rb, broadcast, trailing. cbn [shape]. rewrite E1, E2. cbn [length Nat.sub repeat app Nat.max pad_front bdims]. unfold bdim at 1. rewrite Nat.eqb_refl. cbn [bind]. unfold bdim at 1.
    destruct (Nat.eqb_spec (c2 * S n) (c2 * n)); [nia|]. destruct (Nat.eqb_spec (c2 * S n) 1); [nia|]. destruct (Nat.eqb_spec (c2 * n) 1); [nia|]. reflexivity.
  Qed.

  (** A velocity Jacobian that is one number per cell divides the whole expansion. *)
  Theorem C107_constant n cc vc nc fs ft jf jv jt w i j k l u0 b t0 :
    let nx := repeat n (length cc) in let nv := S n :: repeat n (length vc - 1) in
    product n cc vc nc 1 fs ft jf jv jt w -> in_range cc i -> in_range vc j -> in_range nx k -> in_range nv l ->
    length u0 = length fs -> (forall c, c < length fs -> nth_error u0 c = get (dd_values jf) (i ++ j ++ [c])) ->
    get (dd_values jv) (i ++ j ++ [0]) = Some b ->
    length t0 = length ft -> (forall c, c < length ft -> nth_error t0 c = get (dd_values jt) (i ++ [c])) ->
    get w (sub_index nx i k ++ sub_index nv j l ++ [0]) = Some (expansion u0 fs (centres nx k ++ centres nv l) / b * expansion t0 ft (centres nx k))%R.
  Proof.
    intros nx nv (_ & _ & H) Hi Hj Hk Hl Lu0 Hu0 Hb Lt0 Ht0. destruct (H i j k l Hi Hj Hk Hl) as (u & t & Lu & Lt & Hu & Ht & E0). unfold nx, nv. rewrite E0. do 2 f_equal.
    - generalize (centres (repeat n (length cc)) k ++ centres (S n :: repeat n (length vc - 1)) l). intros x.
      assert (E : u = List.map (fun a => a / b)%R u0).
      { apply nth_error_ext. intros c. rewrite nth_error_map. destruct (lt_dec c (length fs)) as [Hc|Hc].
        - destruct (Hu c Hc) as (a & b' & Ea & Eb & ->). cbn [Nat.eqb] in Eb. rewrite Hb in Eb. injection Eb as <-. rewrite (Hu0 c Hc), Ea. reflexivity.
        - rewrite !(proj2 (nth_error_None _ _)) by lia. reflexivity. }
      rewrite E. clear. unfold expansion. revert u0. induction fs as [|f fs IH]; intros [|a u]; cbn [List.map combine fold_right]; try (unfold Rdiv; lra). rewrite IH. cbn [fst snd]. unfold Rdiv. ring.
    - f_equal. apply nth_error_ext. intros c. destruct (lt_dec c (length ft)) as [Hc|Hc]; [now rewrite Ht, Ht0|]. rewrite !(proj2 (nth_error_None _ _)) by lia. reflexivity.
  Qed.

  (** The grid along position axes from a mapping: [c] are the values of the mapping's own
      component at the centres of the parts along that axis, in the first part of the
      other axes. *)
  Definition mapped_axis (n : nat) (cc : list nat) (ft : list pexp) (mp : dgdata (F := R)) (a : nat) (line : nda R) : Prop :=
    exists c e, line = mk_nda [length e] e /\ edges c e /\ length c = nth a cc 0 * n /\
      forall i k, i < nth a cc 0 -> k < n ->
        exists u, length u = length ft /\
          (forall x, x < length ft -> nth_error u x = get (dd_values mp) (set_nth a i (repeat 0 (length cc)) ++ [a * length ft + x])) /\
          nth_error c (i * n + k) = Some (expansion u ft (centres (repeat n (length cc)) (set_nth a k (repeat 0 (length cc))))).

  Lemma mapped n cc nm ft mp gm vm file gr : points interp n -> 1 <= length cc <= 6 -> Forall (fun c => 0 < c) cc ->
    interp_functions (length cc) 1 true "serendipity" = Ok ft ->
    read file None = Ok mp -> wf (dd_values mp) -> shape (dd_values mp) = cc ++ [nm] -> length cc * length ft <= nm ->
    interpolate1 root mp "ms" interp (seq 0 (length cc)) = Ok (gm, vm) -> length cc <= length gr ->
    exists gr', apply_mc2nu_grid read root gr file interp = Ok gr' /\ length gr' = length gr /\
      (forall a, length cc <= a -> nth_error gr' a = nth_error gr a) /\
      (forall a, a < length cc -> exists line, nth_error gr' a = Some line /\ mapped_axis n cc ft mp a line).
  Proof.
    intros Hn Hd Hc Hft Rmp Wmp Smp Lnm Evm Lgr. assert (N2 : 2 <= n) by (destruct Hn as [(_ & ->)|(_ & ?)]; lia).
    assert (Ds : right_dims (length cc) "serendipity"). { unfold right_dims. split; [lia|]. split; [discriminate|auto]. }
    set (g := mk_ginterp (length cc) 1 "serendipity" n (length ft)).
    assert (I : modal_init mp (Some 1) (Some "ms") interp = Ok g) by (apply (init_modal mp _ nm); [exact Smp|cbn; tauto|exact Ds|exact Hft|exact Hn]).
    assert (Edim : dd_dims mp = length cc) by (unfold dd_dims; now rewrite Smp, removelast_snoc).
    unfold apply_mc2nu_grid. rewrite Rmp. cbn [bind]. rewrite Edim, Evm. cbn [bind].
    unfold interpolate1 in Evm. rewrite I in Evm. cbn [bind] in Evm. unfold modal_interpolate in Evm. apply bind_ok in Evm as (v & Ev & Evm). apply bind_ok in Evm as (gm' & _ & Evm). injection Evm as _ <-.
    destruct (C36_interpolated_value mp g (seq 0 (length cc)) cc nm ft) as (v' & Ev' & Wv & Sv & Vv); try assumption; try reflexivity.
    { split; [apply Ds|discriminate]. } { cbn. discriminate. } { destruct (length cc); [lia|discriminate]. } { intros c Hx. apply in_seq in Hx. nia. }
    rewrite Ev in Ev'. injection Ev' as <-. cbn [gi_interp gi_basis g] in Sv, Vv. rewrite (refine_plain _ _ "serendipity") in Sv, Vv by discriminate. rewrite seq_length in Sv.
    set (nx := repeat n (length cc)) in *. assert (Lnx : length cc = length nx) by (unfold nx; now rewrite repeat_length).
    assert (Nth : forall a, a < length cc -> nth a (shape v) 0 = nth a cc 0 * n).
    { intros a Ha. rewrite Sv. assert (Lr : length (refined_shape cc nx) = length cc) by (unfold refined_shape; rewrite map_length, combine_length; lia). rewrite app_nth1 by lia.
      unfold nx. clear -Ha. revert a Ha. induction cc as [|c cc IH]; intros a Ha; [cbn in Ha; lia|]. destruct a; [reflexivity|]. cbn in Ha. cbn [length repeat]. unfold refined_shape in *. cbn [combine List.map nth]. apply IH. lia. }
    assert (Pos : forall a, a < length cc -> 0 < nth a cc 0). { intros a Ha. rewrite Forall_forall in Hc. apply Hc. now apply nth_In. }
    (* one axis *)
    assert (One : forall a, a < length cc -> exists c e, extract_values_along_dimension v a (length cc) = Ok c /\ cell_centered_to_nodal c = Ok e /\ mapped_axis n cc ft mp a (line_nda e)).
    { intros a Ha. set (val := fun x => match get v (set_nth a x (repeat 0 (length cc)) ++ [a]) with Some r => r | None => 0%R end).
      assert (Rg : forall i k, i < nth a cc 0 -> k < n -> exists u, length u = length ft /\
          (forall x, x < length ft -> nth_error u x = get (dd_values mp) (set_nth a i (repeat 0 (length cc)) ++ [a * length ft + x])) /\
          get v (set_nth a (i * n + k) (repeat 0 (length cc)) ++ [a]) = Some (expansion u ft (centres nx (set_nth a k (repeat 0 (length cc)))))).
      { intros i k Hi Hk. destruct (Vv a a (set_nth a i (repeat 0 (length cc))) (set_nth a k (repeat 0 (length cc)))) as (u & Lu & Vu & Gu).
        - rewrite nth_error_seq. destruct (Nat.ltb_spec a (length cc)); [reflexivity|lia].
        - apply line_range; assumption.
        - rewrite Lnx. apply line_range; [lia| |]. { unfold nx. rewrite (nth_indep _ 0 n) by (now rewrite repeat_length). rewrite nth_repeat. exact Hk. } apply Forall_forall. intros z Hz. apply repeat_spec in Hz. lia.
        - exists u. split; [exact Lu|]. split; [exact Vu|]. rewrite <- Gu. do 2 f_equal. symmetry. apply sub_line. exact Ha. }
      set (c := List.map val (seq 0 (nth a cc 0 * n))).
      assert (Ec : extract_values_along_dimension v a (length cc) = Ok c).
      { unfold extract_values_along_dimension. rewrite (Nth a Ha). apply mapM_ok_all. intros x Hx. apply in_seq in Hx. assert (Hx' : x < nth a cc 0 * n) by lia.
        destruct (Rg (x / n) (x mod n)) as (u & _ & _ & Gu); [apply Nat.div_lt_upper_bound; lia|apply Nat.mod_upper_bound; lia|]. unfold val. replace (x / n * n + x mod n) with x in Gu by (rewrite (Nat.div_mod x n) at 1; lia).
        rewrite Gu. reflexivity. }
      assert (Lc : length c = nth a cc 0 * n) by (unfold c; now rewrite map_length, seq_length). pose proof (Pos a Ha) as Pa.
      destruct (C64_edges c) as (e & Ee & Le & H1 & H2 & H3); [rewrite Lc; nia|]. exists c, e. split; [exact Ec|]. split; [exact Ee|]. exists c, e. split; [reflexivity|]. split.
      { split; [exact Le|]. split; [intros i Hi; apply H1; lia|]. split; assumption. }
      split; [exact Lc|]. intros i k Hi Hk. destruct (Rg i k Hi Hk) as (u & Lu & Vu & Gu). exists u. split; [exact Lu|]. split; [exact Vu|]. fold nx. unfold c. rewrite nth_error_map, nth_error_seq. destruct (Nat.ltb_spec (i * n + k) (nth a cc 0 * n)); [|nia]. cbn [option_map Nat.add]. unfold val. rewrite Gu. reflexivity. }
    (* the loop *)
    set (stepf := fun (acc : res (list (nda R))) a => let* g := acc in let* c := extract_values_along_dimension v a (length cc) in let* e := cell_centered_to_nodal c in if a <? length g then Ok (set_nth a (line_nda e) g) else Err IndexError).
    assert (G : forall m k cur, k + m = length cc -> length cur = length gr -> exists gr', fold_left stepf (seq k m) (Ok cur) = Ok gr' /\ length gr' = length gr /\
      (forall a, a < k \/ length cc <= a -> nth_error gr' a = nth_error cur a) /\ (forall a, k <= a < length cc -> exists line, nth_error gr' a = Some line /\ mapped_axis n cc ft mp a line)).
    { induction m as [|m IH]; intros k cur Hk Lcur; cbn [seq fold_left].
      - exists cur. split; [reflexivity|]. split; [exact Lcur|]. split; [reflexivity|]. intros a Ha. lia.
      - destruct (One k ltac:(lia)) as (c & e & Ec & Ee & Hm). unfold stepf at 2. cbn [bind]. rewrite Ec. cbn [bind]. rewrite Ee. cbn [bind]. destruct (Nat.ltb_spec k (length cur)); [|lia].
        destruct (IH (S k) (set_nth k (line_nda e) cur)) as (gr' & E & L & K & M); [lia|now rewrite set_nth_len|]. exists gr'. split; [exact E|]. split; [exact L|]. split.
        + intros a Ha. rewrite K by lia. rewrite nth_error_set by lia. destruct (Nat.eqb_spec a k); [lia|reflexivity].
        + intros a Ha. destruct (Nat.eq_dec a k) as [->|]; [|apply M; lia]. exists (line_nda e). split; [|exact Hm]. rewrite K by lia. rewrite nth_error_set by lia. now rewrite Nat.eqb_refl. }
    destruct (G (length cc) 0 gr eq_refl eq_refl) as (gr' & E & L & K & M). exists gr'. split; [exact E|]. split; [exact L|]. split; [intros a Ha; apply K; lia|intros a Ha; apply M; lia].
  Qed.

  (** A mapping replaces the position axes of the grid, by edges around its values, and
      nothing else; mc2nu is preferred to mapc2p. *)
  Theorem C107_mapped vel nu p n cc vc nc m nt nm fs ft jf jv jt mp gr v0 gt w0 gm vm :
    fits vel n cc vc nc m nt fs ft jf jv jt -> gk_dims (length cc) (length vc) ->
    interpolate1 root jf "gkhyb" interp [0] = Ok (gr, v0) -> interpolate1 root jt "ms" interp [0] = Ok (gt, w0) ->
    nu = true \/ p = true ->
    read (if nu then given (fl_mc2nu fl) (sim name block ++ "-mc2nu_pos_deflated.gkyl") else given (fl_mapc2p fl) (sim name block ++ "-mapc2p_deflated.gkyl")) None = Ok mp ->
    wf (dd_values mp) -> shape (dd_values mp) = cc ++ [nm] -> length cc * length ft <= nm -> interpolate1 root mp "ms" interp (seq 0 (length cc)) = Ok (gm, vm) ->
    exists w gr', load_gk_distf read root name species frame tag suffix vel nu p block interp fl =
        Ok (mk_distf tag gr' w ((if vel then "c2p_vel + " else "") ++ (if nu then "mc2nu" else "mapc2p"))%string) /\
      product n cc vc nc m fs ft jf jv jt w /\ length gr' = length cc + length vc /\
      (forall a, length cc <= a -> nth_error gr' a = nth_error gr a) /\
      (forall a, a < length cc -> exists line, nth_error gr' a = Some line /\ mapped_axis n cc ft mp a line).
  Proof.
    intros H Hd Ejf Ejt Hm Rmp Wmp Smp Lnm Evm. destruct (core vel nu p _ _ _ _ _ _ _ _ _ _ _ _ _ _ _ H Hd Ejf Ejt) as (w & Hw & E).
    assert (Lgr : length gr = length cc + length vc).
    { destruct H as [Hn Hd' _ Hfs _ (_ & Sjf & _) _ _]. unfold interpolate1 in Ejf. rewrite <- app_length in Hfs, Hd'.
      rewrite (init_modal jf (cc ++ vc) nc "gkhyb" "gkhybrid" interp n fs Sjf ltac:(cbn; tauto)) in Ejf; [|unfold right_dims; split; [|split; [intros _|intros E1; exfalso]]; lia|exact Hfs|exact Hn]. cbn [bind] in Ejf. unfold modal_interpolate in Ejf.
      apply bind_ok in Ejf as (? & _ & Ejf). apply bind_ok in Ejf as (g1 & Eg1 & Ejf). injection Ejf as -> _. rewrite (grid_length _ _ _ _ Eg1). cbn [gi_dims]. apply app_length. }
    destruct H as [Hn _ Hc _ Hft _ _ _]. apply Forall_app in Hc as (Hcc & _).
    destruct (mapped n cc nm ft mp gm vm _ gr Hn ltac:(unfold gk_dims in Hd; lia) Hcc Hft Rmp Wmp Smp Lnm Evm ltac:(lia)) as (gr' & Eg & L & K & M).
    exists w, gr'. split; [|split; [exact Hw|]; split; [lia|]; split; assumption]. rewrite E. unfold finish. destruct nu; [rewrite Eg; destruct vel; reflexivity|]. destruct p; [rewrite Eg; destruct vel; reflexivity|]. destruct Hm; discriminate.
  Qed.

End Load.

(** Only the files named are read, whatever the outcome. *)
Theorem C107_files (read read' : string -> option string -> res (dgdata (F := R))) root name species frame tag suffix (vel nu p : bool) block interp fl :
  (forall o, o = (if vel then Some (given (fl_mapc2p_vel fl) (sim name block ++ "-" ++ species ++ "_mapc2p_vel.gkyl")) else None) ->
     read (given (fl_jf fl) (frame_file name species suffix block frame)) o = read' (given (fl_jf fl) (frame_file name species suffix block frame)) o) ->
  (forall f, f = given (fl_jacobvel fl) (sim name block ++ "-" ++ species ++ "_jacobvel.gkyl") \/ f = given (fl_jacobtot_inv fl) (sim name block ++ "-jacobtot_inv.gkyl") \/
     nu = true /\ f = given (fl_mc2nu fl) (sim name block ++ "-mc2nu_pos_deflated.gkyl") \/
     nu = false /\ p = true /\ f = given (fl_mapc2p fl) (sim name block ++ "-mapc2p_deflated.gkyl") -> read f None = read' f None) ->
  load_gk_distf read root name species frame tag suffix vel nu p block interp fl = load_gk_distf read' root name species frame tag suffix vel nu p block interp fl.
Proof.
  intros H1 H2. unfold load_gk_distf.
  assert (E : or_default (fl_jf fl) (jf_name name species suffix block frame) = given (fl_jf fl) (frame_file name species suffix block frame)).
  { unfold or_default, given. destruct (fl_jf fl); [reflexivity|]. unfold frame_file, jf_name, stem, infix. change (block_name name block) with (sim name block). rewrite !sapp_assoc. reflexivity. }
  rewrite E. rewrite (H1 (if vel then Some (or_default (fl_mapc2p_vel fl) (block_name name block ++ "-" ++ species ++ "_mapc2p_vel.gkyl")) else None) eq_refl). destruct (read' (given (fl_jf fl) _) _) as [jf|]; [|reflexivity]. cbn [bind].
  rewrite (H2 (or_default (fl_jacobvel fl) _)) by (left; reflexivity). destruct (read' (or_default (fl_jacobvel fl) _) None) as [jv|]; [|reflexivity]. cbn [bind].
  rewrite (H2 (or_default (fl_jacobtot_inv fl) _)) by (right; left; reflexivity). destruct (read' (or_default (fl_jacobtot_inv fl) _) None) as [jt|]; [|reflexivity]. cbn [bind].
  destruct (rb Rdiv _ _) as [q|]; [|reflexivity]. cbn [bind]. destruct (interpolate1 root _ "gkhyb" interp [0]) as [[gr f]|]; [|reflexivity]. cbn [bind]. destruct (interpolate1 root _ "ms" interp [0]) as [[gt j]|]; [|reflexivity]. cbn [bind].
  destruct (rb Rmult _ _) as [w|]; [|reflexivity]. cbn [bind]. destruct nu; [|destruct p; [|reflexivity]].
  - unfold apply_mc2nu_grid. rewrite (H2 (or_default (fl_mc2nu fl) _)) by (right; right; left; split; reflexivity). reflexivity.
  - unfold apply_mc2nu_grid. rewrite (H2 (or_default (fl_mapc2p fl) _)) by (right; right; right; repeat split; reflexivity). reflexivity.
Qed.

(** The command: one dataset per frame, in order; an option left out is off, given empty
      it uses the default file, otherwise the file given. *)
Definition meaning (o : option string) (on : bool) (file : option string) : Prop :=
  o = None /\ on = false /\ file = None \/ o = Some "" /\ on = true /\ file = None \/ exists f, f <> "" /\ o = Some f /\ on = true /\ file = Some f.

Theorem C107_frames read root name species frames tag suffix c2p_vel mc2nu mapc2p uv un up fv fn fp block interp jf jacobvel jacobtot_inv rs :
  meaning c2p_vel uv fv -> meaning mc2nu un fn -> meaning mapc2p up fp ->
  (load_frames read root name species frames tag suffix c2p_vel mc2nu mapc2p block interp jf jacobvel jacobtot_inv = Ok rs <->
   Forall2 (fun frame r => load_gk_distf read root name species frame tag suffix uv un up block interp (mk_files jf fv jacobvel fn fp jacobtot_inv) = Ok r) frames rs).
Proof.
  intros M1 M2 M3. unfold load_frames.
  assert (R : forall o on f, meaning o on f -> resolve_optional_file_option o = (on, f)).
  { intros o on f [(-> & -> & ->)|[(-> & -> & ->)|(x & Hx & -> & -> & ->)]]; try reflexivity. unfold resolve_optional_file_option. destruct (String.eqb_spec x ""); [contradiction|reflexivity]. }
  rewrite (R _ _ _ M1), (R _ _ _ M2), (R _ _ _ M3). apply mapM_ok.
Qed.

(** Files with plain grids can be interpolated: the conditions above can be met. *)
Theorem C107_ready root (d : dgdata (F := R)) cells nc s b fs interp n E :
  wf (dd_values d) -> shape (dd_values d) = cells ++ [nc] -> In (s, b) [("ms", "serendipity"); ("gkhyb", "gkhybrid")] -> right_dims (length cells) b ->
  interp_functions (length cells) 1 true b = Ok fs -> 1 <= E -> E * length fs <= nc -> points interp n ->
  dd_grid_type d <> "c2p" -> dd_grid_type d <> "c2p_vel" -> length (dd_grid d) = length cells -> Forall (fun x => flat x <> []) (dd_grid d) ->
  exists gr v, interpolate1 root d s interp (seq 0 E) = Ok (gr, v).
Proof.
  intros W Sd Hs D Hf HE Lf Hn T1 T2 Lg Hg. unfold interpolate1. rewrite (init_modal d cells nc s b interp n fs Sd Hs D Hf Hn). cbn [bind]. set (g := mk_ginterp _ _ _ _ _).
  assert (N2 : 2 <= n) by (destruct Hn as [(_ & ->)|(_ & ?)]; lia).
  assert (Db : dims_ok (length cells) b) by (split; apply D). assert (Hb : b = "hybrid" -> 2 <= length cells) by (intros ->; destruct Hs as [H|[H|[]]]; discriminate H).
  destruct (C36_interpolated_value d g (seq 0 E) cells nc fs) as (v & Ev & _); try assumption; try reflexivity.
  { destruct E; [lia|discriminate]. } { intros c Hc. apply in_seq in Hc. nia. }
  unfold modal_interpolate. rewrite Ev. cbn [bind]. unfold modal_grid. apply String.eqb_neq in T1, T2. rewrite T1, T2.
  unfold create_interp_matrix. cbn [andb gi_dims gi_poly gi_basis gi_interp g]. rewrite Hf. cbn [bind].
  match goal with |- context [grid_counts root g ?k] => generalize k end. intros rows.
  assert (GC : exists ns, grid_counts root g rows = Ok ns /\ length ns = length cells).
  { unfold grid_counts. cbn [gi_dims gi_basis gi_interp g]. destruct Hs as [H|[H|[]]]; injection H as _ <-.
    - cbn [String.eqb Ascii.eqb Bool.eqb]. eexists. split; [reflexivity|apply repeat_length].
    - cbn [String.eqb Ascii.eqb Bool.eqb]. destruct D as (_ & D & _). specialize (D eq_refl).
      assert (V : vpardir (length cells) < length cells) by (assert (Hl : length cells = 2 \/ length cells = 3 \/ length cells = 4 \/ length cells = 5) by lia; destruct Hl as [-> | [-> | [-> | ->]]]; cbn; lia).
      apply Nat.ltb_lt in V. rewrite V. eexists. split; [reflexivity|]. now rewrite set_nth_len, repeat_length. }
  destruct GC as (ns & -> & Lns). cbn [bind]. unfold make_1d_grids.
  assert (M : exists l, mapM (fun a => match nth_error ns a with Some n0 => match nth_error (dd_grid d) a with Some g0 => make_mesh rops n0 (flat g0) None | None => Err IndexError end | None => Err IndexError end) (seq 0 (length cells)) = Ok l).
  { assert (A : forall a, In a (seq 0 (length cells)) -> exists l, (match nth_error ns a with Some n0 => match nth_error (dd_grid d) a with Some g0 => make_mesh rops n0 (flat g0) None | None => Err IndexError end | None => Err IndexError end) = Ok l).
    { intros a Ha. apply in_seq in Ha. destruct (nth_error ns a) as [n0|] eqn:En; [|apply nth_error_None in En; lia]. destruct (nth_error (dd_grid d) a) as [g0|] eqn:Eg; [|apply nth_error_None in Eg; lia].
      rewrite Forall_forall in Hg. specialize (Hg g0 (nth_error_In _ _ Eg)). unfold make_mesh. destruct (flat g0); [contradiction|]. eexists. reflexivity. }
    revert A. generalize (seq 0 (length cells)). intros l. induction l as [|a l IH]; intros A; [exists []; reflexivity|]. cbn [mapM]. destruct (A a (or_introl eq_refl)) as (x & ->). cbn [bind]. destruct IH as (xs & ->); [intros a' Ha'; apply A; now right|]. exists (x :: xs). reflexivity. }
  destruct M as (l & M). exists (List.map line_nda l), v. cbv beta zeta. rewrite M. reflexivity.
Qed.

(** ** Examples: one cell of position and one of velocity *)
Definition ex_grid2 : list (nda R) := [mk_nda [2] [0; 1]%R; mk_nda [2] [-1; 1]%R].
Definition ex_jf : dgdata (F := R) := mk_dgdata (mk_nda [1; 1; 6] [8; 1; 2; 0; 1; 0]%R) ex_grid2 "uniform" None None 1 1.
Definition ex_jv : dgdata (F := R) := mk_dgdata (mk_nda [1; 1; 1] [2]%R) ex_grid2 "uniform" None None 1 1.
Definition ex_jt : dgdata (F := R) := mk_dgdata (mk_nda [1; 2] [4; 1]%R) [mk_nda [2] [0; 1]%R] "uniform" None None 1 0.
Definition ex_read (f : string) (_ : option string) : res (dgdata (F := R)) :=
  if String.eqb f "run_b1-ion_5.gkyl" then Ok ex_jf else if String.eqb f "run_b1-ion_jacobvel.gkyl" then Ok ex_jv
  else if String.eqb f "run_b1-jacobtot_inv.gkyl" then Ok ex_jt else if String.eqb f "map.gkyl" then Ok ex_jt else Err OSError.
Definition no_files : distf_files := mk_files None None None (Some "map.gkyl") None None.
Example ex_fits : exists fs ft, fits ex_read "run" "ion" 5 "" (Some 1%Z) None no_files false 2 [1] [1] 6 1 2 fs ft ex_jf ex_jv ex_jt.
Proof.
  destruct (interp_functions 2 1 true "gkhybrid") as [fs|] eqn:E1; [|vm_compute in E1; discriminate E1]. destruct (interp_functions 1 1 true "serendipity") as [ft|] eqn:E2; [|vm_compute in E2; discriminate E2].
  exists fs, ft. constructor.
  - left. split; reflexivity.
  - cbn. lia.
  - repeat constructor.
  - exact E1.
  - exact E2.
  - split; [reflexivity|]. split; [reflexivity|]. split; [reflexivity|]. revert E1. vm_compute. intros [= <-]. cbn. lia.
  - split; [reflexivity|]. split; [reflexivity|]. split; [reflexivity|]. now right.
  - split; [reflexivity|]. split; [reflexivity|]. split; [reflexivity|]. revert E2. vm_compute. intros [= <-]. cbn. lia.
Qed.
Example ex_ready root : exists gr v gt w, interpolate1 root ex_jf "gkhyb" None [0] = Ok (gr, v) /\ interpolate1 root ex_jt "ms" None [0] = Ok (gt, w).
Proof.
  destruct ex_fits as (fs & ft & [Hn _ _ Hfs Hft (_ & Sjf & Wjf & Ljf) _ (_ & Sjt & Wjt & Ljt)]).
  destruct (C107_ready root ex_jf [1; 1] 6 "gkhyb" "gkhybrid" fs None 2 1) as (gr & v & E1); try assumption; try (cbn; tauto); try (cbn; lia); try discriminate.
  { unfold right_dims. cbn. repeat split; try lia. } { repeat constructor; discriminate. }
  destruct (C107_ready root ex_jt [1] 2 "ms" "serendipity" ft None 2 1) as (gt & w & E2); try assumption; try (cbn; tauto); try (cbn; lia); try discriminate.
  { unfold right_dims. cbn. repeat split; try lia; try discriminate. now left. } { repeat constructor; discriminate. }
  exists gr, v, gt, w. split; assumption.
Qed.

Print Assumptions C107_values.
Print Assumptions C107_two_one.
Print Assumptions C107_constant.
Print Assumptions C107_mapped.
Print Assumptions C107_files.
Print Assumptions C107_frames.
Print Assumptions C107_ready.
