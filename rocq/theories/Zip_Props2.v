(** * C88, C89: the commands agyro, mom_agyro and energetics on data. *)
From Coq Require Import String Ascii List Arith ZArith Bool Lia Reals Lra.
From Verif Require Import Prelude PreludeFacts NdArray Ev_Model Tools_Arr Tools_Model Tools_Proofs Tools_Proofs2
  Tools_Props Tools_Props2 Tools_Props3 DataSpace_Model DataSpace_Spec
  DataSpace_Proofs DataSpace_Proofs2 DataSpace_Proofs3 DataSpace_Props Zip_Model Zip_Proofs Zip_Props.
Import ListNotations.
Open Scope list_scope.
Open Scope nat_scope.

(** A tag without commas. *)
Definition plain_tag (t : string) : Prop := t <> ""%string /\ has_char "," t = false.

(** The active datasets of a tag, in order. *)
Definition act (ds : dspace fdata) (t : string) : list fdata := List.map ds_data (actives ds t).

Lemma passed_act ds t : Forall2 (fun r x => exists d, lookup ds r = Some d /\ ds_data d = x) (passed ds [t]) (act ds t).
Proof.
  unfold passed, act, actives, selected. cbn [flat_map]. rewrite app_nil_r.
  destruct (aget t ds) as [l|] eqn:El; [|constructor].
  assert (G : forall k l1 l2, l = l1 ++ l2 -> k = length l1 ->
    Forall2 (fun r x => exists d, lookup ds r = Some d /\ ds_data d = x)
      (List.filter (is_active ds) (List.map (pair t) (seq k (length l2)))) (List.map ds_data (List.filter ds_status l2))).
  { intros k l1 l2. revert k l1. induction l2 as [|d l2 IH]; intros k l1 Hl Hk; [constructor|].
    cbn [length seq List.map List.filter].
    assert (Hd : lookup ds (t, k) = Some d).
    { unfold lookup. cbn. rewrite El, Hl, nth_error_app2, Hk, Nat.sub_diag by lia. reflexivity. }
    unfold is_active at 1. rewrite Hd. specialize (IH (S k) (l1 ++ [d])).
    destruct (ds_status d); [cbn [List.map]; constructor; [eauto|]|]; (apply IH; [now rewrite <- app_assoc|rewrite app_length; simpl; lia]). }
  apply (G 0 [] l); reflexivity.
Qed.

Lemma passed_nth ds t k :
  match nth_error (act ds t) k with
  | Some x => exists r d, nth_error (passed ds [t]) k = Some r /\ lookup ds r = Some d /\ ds_data d = x
  | None => nth_error (passed ds [t]) k = None
  end.
Proof.
  pose proof (passed_act ds t) as F. revert k. induction F as [|r x rs xs (d & H1 & H2) _ IH]; intros [|k]; cbn [nth_error]; auto.
  - exists r, d. auto.
  - apply IH.
Qed.

(** Two and three iterators over one tag each. *)
Section Two.
  Context (f : fdata -> fdata -> res fdata) (out label : string) (ds : dspace fdata) (t1 t2 : string).
  Context (P1 : plain_tag t1) (P2 : plain_tag t2) (K1 : aget t1 ds <> None) (K2 : aget t2 ds <> None).

  Lemma two_ok (g : fdata -> fdata -> fdata) :
    (forall k a b, nth_error (act ds t1) k = Some a -> nth_error (act ds t2) k = Some b -> f a b = Ok (g a b)) ->
    exists ds' news, zip_loop (on2 f) out label (Some t1) [Some t2] ds = Ok ds' /\
      (forall t, t <> out -> aget t ds' = aget t ds) /\ under ds' out = under ds out ++ news /\
      List.map ds_data news = map2 g (act ds t1) (act ds t2) /\
      (forall n, In n news -> ds_file n = ""%string /\ ds_status n = true /\ ds_label n = label).
  Proof using P1 P2 K1 K2.
    intros Hf. destruct P1 as [N1 C1], P2 as [N2 C2].
    destruct (C88_zip (on2 f) (fun l => match l with [a; b] => g a b | _ => ([], snd (hd ([], mk_nda [] []) l)) end)
                out label ds (Some t1) [Some t2] [t1] [[t2]]) as (ds' & news & E & Ho & Hout & Hk).
    - now apply names_one.
    - constructor; [now apply names_one|constructor].
    - intros t [[<-|[]]|H]; [auto|]. apply Exists_exists in H as (l & [<-|[]] & [<-|[]]). auto.
    - intros [].
    - constructor; [intros []|constructor].
    - intros k rs dl Hr F. cbn [List.map row] in Hr.
      pose proof (passed_nth ds t1 k) as H1. pose proof (passed_nth ds t2 k) as H2.
      destruct (nth_error (act ds t1) k) as [a|] eqn:Ea; [|rewrite H1 in Hr; discriminate].
      destruct H1 as (r1 & d1 & H1 & L1 & D1). rewrite H1 in Hr.
      destruct (nth_error (act ds t2) k) as [b|] eqn:Eb; [|rewrite H2 in Hr; discriminate].
      destruct H2 as (r2 & d2 & H2 & L2 & D2). rewrite H2 in Hr. injection Hr as <-.
      inversion F as [|? x1 ? ? G1 F1]; subst. inversion F1 as [|? x2 ? ? G2 F2]; subst. inversion F2; subst.
      cbn [List.map on2]. replace x1 with d1 by congruence. replace x2 with d2 by congruence. eapply Hf; eauto.
    - exists ds', news. split; [exact E|]. split; [exact Ho|]. split; [exact Hout|]. split.
      + apply nth_error_ext. intros k. specialize (Hk k). cbn [List.map row] in Hk.
        rewrite nth_error_map. 
        assert (Em : nth_error (map2 g (act ds t1) (act ds t2)) k =
                     match nth_error (act ds t1) k, nth_error (act ds t2) k with Some a, Some b => Some (g a b) | _, _ => None end).
        { clear. generalize (act ds t1) (act ds t2). intros l m. revert m k. induction l as [|a l IH]; intros [|b m] [|k]; cbn; auto.
          destruct (nth_error l k); reflexivity. }
        rewrite Em. pose proof (passed_nth ds t1 k) as H1. pose proof (passed_nth ds t2 k) as H2.
        destruct (nth_error (act ds t1) k) as [a|] eqn:Ea; [|rewrite H1 in Hk; now rewrite Hk].
        destruct H1 as (r1 & d1 & H1 & L1 & D1). rewrite H1 in Hk.
        destruct (nth_error (act ds t2) k) as [b|] eqn:Eb; [|rewrite H2 in Hk; now rewrite Hk].
        destruct H2 as (r2 & d2 & H2 & L2 & D2). rewrite H2 in Hk. destruct Hk as (n & dl & En & F & Dn & _).
        inversion F as [|? x1 ? ? G1 F1]; subst. inversion F1 as [|? x2 ? ? G2 F2]; subst. inversion F2; subst.
        rewrite En. cbn [option_map]. rewrite Dn. cbn [List.map]. congruence.
      + intros n Hn. apply In_nth_error in Hn as [k Hn]. specialize (Hk k).
        destruct (row k _) as [rs|]; [|congruence]. destruct Hk as (n' & dl & En & _ & _ & H). congruence.
  Qed.

  (** The first failing pair. *)
  Lemma two_error k a b e :
    (forall j a b, j < k -> nth_error (act ds t1) j = Some a -> nth_error (act ds t2) j = Some b -> exists y, f a b = Ok y) ->
    nth_error (act ds t1) k = Some a -> nth_error (act ds t2) k = Some b -> f a b = Err e ->
    zip_loop (on2 f) out label (Some t1) [Some t2] ds = Err e.
  Proof using P1 P2 K1 K2.
    intros Hf Ha Hb He. destruct P1 as [N1 C1], P2 as [N2 C2].
    pose proof (passed_nth ds t1 k) as H1. pose proof (passed_nth ds t2 k) as H2. rewrite Ha in H1. rewrite Hb in H2.
    destruct H1 as (r1 & d1 & H1 & L1 & D1). destruct H2 as (r2 & d2 & H2 & L2 & D2).
    eapply (C88_zip_error (on2 f) (fun l => match on2 f l with Ok y => y | Err _ => ([], mk_nda [] []) end)
              out label ds (Some t1) [Some t2] [t1] [[t2]] k [r1; r2] [d1; d2]).
    - now apply names_one.
    - constructor; [now apply names_one|constructor].
    - intros t [[<-|[]]|H]; [auto|]. apply Exists_exists in H as (l & [<-|[]] & [<-|[]]). auto.
    - intros [].
    - constructor; [intros []|constructor].
    - intros j rs dl Hj Hr F. cbn [List.map row] in Hr.
      pose proof (passed_nth ds t1 j) as G1. pose proof (passed_nth ds t2 j) as G2.
      destruct (nth_error (act ds t1) j) as [a'|] eqn:Ea; [|rewrite G1 in Hr; discriminate].
      destruct G1 as (r1' & d1' & G1 & M1 & E1). rewrite G1 in Hr.
      destruct (nth_error (act ds t2) j) as [b'|] eqn:Eb; [|rewrite G2 in Hr; discriminate].
      destruct G2 as (r2' & d2' & G2 & M2 & E2). rewrite G2 in Hr. injection Hr as <-.
      inversion F as [|? x1 ? ? I1 F1]; subst. inversion F1 as [|? x2 ? ? I2 F2]; subst. inversion F2; subst.
      cbn [List.map on2]. replace x1 with d1' by congruence. replace x2 with d2' by congruence.
      destruct (Hf j (ds_data d1') (ds_data d2') Hj) as [y Ey]; [congruence..|]. now rewrite Ey.
    - cbn [List.map row]. now rewrite H1, H2.
    - constructor; [auto|]. constructor; [auto|constructor].
    - cbn [List.map on2]. congruence.
  Qed.
End Two.

(** ** C88: agyro *)

(** A pressure tensor and a magnetic field on the same cells. *)
Definition agyro_input (p b : fdata) : Prop :=
  exists cells np nb fp fb, shows cells np (snd p) fp /\ shows cells nb (snd b) fb /\ 6 <= np /\ 3 <= nb.

(** For every pair (k-th active pressure, k-th active field) the command adds
    one dataset, with the coordinates of the field and the agyrotropy (C41) of
    the pair; both inputs, like all other datasets, stay as they are. *)
Theorem C88_agyro measure pt bt tag label ds :
  measure = "swisdak"%string \/ measure = "frobenius"%string ->
  plain_tag pt -> plain_tag bt -> aget pt ds <> None -> aget bt ds <> None ->
  (forall k p b, nth_error (act ds pt) k = Some p -> nth_error (act ds bt) k = Some b -> agyro_input p b) ->
  let out := match tag with Some t => if (t =? "")%string then "agyro"%string else t | None => "agyro"%string end in
  exists ds' news, agyro_command measure pt bt tag label ds = Ok ds' /\
    (forall t, t <> out -> aget t ds' = aget t ds) /\ under ds' out = under ds out ++ news /\
    Forall2 (fun pb n => get_agyro measure (snd (fst pb)) (snd (snd pb)) = Ok (snd (ds_data n)) /\ fst (ds_data n) = fst (snd pb) /\
                         ds_status n = true /\ ds_label n = label)
      (combine (act ds pt) (act ds bt)) news.
Proof.
  intros Hm P1 P2 K1 K2 Hin out.
  assert (Hc : existsb (String.eqb measure) agyro_choices = true) by (destruct Hm as [-> | ->]; reflexivity).
  unfold agyro_command. rewrite Hc. cbn [negb].
  assert (Hok : forall k p b, nth_error (act ds pt) k = Some p -> nth_error (act ds bt) k = Some b -> exists w, get_agyro measure (snd p) (snd b) = Ok w).
  { intros k p b Ha Hb. destruct (Hin k p b Ha Hb) as (cells & np & nb & fp & fb & Sp & Sb & Hp & Hb').
    destruct (C41_choices cells np nb (snd p) (snd b) fp fb Sp Sb Hp Hb') as [C _]. apply C. destruct Hm as [-> | ->]; cbn; auto. }
  set (g := fun p b : fdata => (fst b, match get_agyro measure (snd p) (snd b) with Ok w => w | Err _ => snd b end)).
  destruct (two_ok (agyro_pair measure) (agyro_tag tag) label ds pt bt P1 P2 K1 K2 g) as (ds' & news & E & Ho & Hout & Hd & Hs).
  { intros k a b Ha Hb. unfold agyro_pair, g. destruct (Hok k a b Ha Hb) as [w ->]. reflexivity. }
  exists ds', news. split; [exact E|]. split; [exact Ho|]. split; [exact Hout|].
  clear -Hd Hs Hok. revert news Hd Hs Hok. generalize (act ds pt) (act ds bt). intros l m. revert m.
  induction l as [|a l IH]; intros [|b m] news Hd Hs Hok; destruct news as [|n news]; cbn in Hd; try discriminate Hd; cbn [combine]; try constructor.
  - injection Hd as Hn Hd. destruct (Hok 0 a b eq_refl eq_refl) as [w Ew]. destruct (Hs n (or_introl eq_refl)) as (_ & Hst & Hl).
    destruct n as [i fl st lb dd].
    cbn [ds_data ds_status ds_label fst snd] in *. unfold g in Hn. rewrite Ew in Hn. rewrite Hn. repeat split; auto.
  - injection Hd as Hn Hd. apply IH; [exact Hd|intros; apply Hs; now right|]. intros k. apply (Hok (S k)).
Qed.

(** Gyrotropic pressures give zero everywhere, with either measure. *)
Theorem C88_gyrotropic measure pt bt tag label ds :
  measure = "swisdak"%string \/ measure = "frobenius"%string ->
  plain_tag pt -> plain_tag bt -> aget pt ds <> None -> aget bt ds <> None ->
  (forall k p b, nth_error (act ds pt) k = Some p -> nth_error (act ds bt) k = Some b ->
     exists cells np nb fp fb (par perp : list nat -> R), shows cells np (snd p) fp /\ shows cells nb (snd b) fb /\ 6 <= np /\ 3 <= nb /\
       (forall x, in_range cells x -> exists i, i < 3 /\ fb x i <> 0%R) /\
       (forall x, in_range cells x -> (0 < perp x /\ 0 < perp x + 2 * par x)%R) /\
       (forall x i j, in_range cells x -> i < 3 -> j < 3 -> tensor_of (fp x) i j = gyro (par x) (perp x) (fb x) i j)) ->
  exists ds' news, agyro_command measure pt bt tag label ds = Ok ds' /\ under ds' (agyro_tag tag) = under ds (agyro_tag tag) ++ news /\
    length news = min (length (act ds pt)) (length (act ds bt)) /\
    forall n idx x, In n news -> get (snd (ds_data n)) idx = Some x -> x = 0%R.
Proof.
  intros Hm P1 P2 K1 K2 Hin.
  destruct (C88_agyro measure pt bt tag label ds Hm P1 P2 K1 K2) as (ds' & news & E & Ho & Hout & F).
  { intros k p b Ha Hb. destruct (Hin k p b Ha Hb) as (cells & np & nb & fp & fb & par & perp & H). exists cells, np, nb, fp, fb. intuition. }
  exists ds', news. split; [exact E|]. split; [exact Hout|]. split.
  { assert (L := F). apply Forall2_length in L. etransitivity; [symmetry; exact L|apply combine_length]. }
  assert (Hi : forall p b, In (p, b) (combine (act ds pt) (act ds bt)) -> exists k, nth_error (act ds pt) k = Some p /\ nth_error (act ds bt) k = Some b).
  { clear. generalize (act ds pt) (act ds bt). induction l as [|a l IH]; intros [|c m] p b H; try destruct H.
    - injection H as -> ->. exists 0. auto.
    - destruct (IH m p b H) as [k Hk]. exists (S k). exact Hk. }
  clear Hout Ho E. revert Hi F. generalize (combine (act ds pt) (act ds bt)). intros l Hi F n idx x Hn Hx.
  induction F as [|[p b] n' l news (Ew & _) _ IH]; [destruct Hn|].
  destruct Hn as [->|Hn]; [|apply IH; auto; intros; apply Hi; now right].
  destruct (Hi p b (or_introl eq_refl)) as (k & Ha & Hb).
  destruct (Hin k p b Ha Hb) as (cells & np & nb & fp & fb & par & perp & Sp & Sb & Hp & Hb' & Nz & Pos & G).
  destruct (C41_gyrotropic cells np nb (snd p) (snd b) fp fb Sp Sb Hp Hb' Nz measure par perp) as (w & E' & W & Sh & V); auto.
  { destruct Hm as [-> | ->]; [right|left]; reflexivity. }
  cbn [fst snd] in Ew. rewrite E' in Ew. injection Ew as ->.
  assert (R : in_range (cells ++ [1]) idx).
  { rewrite <- Sh. eapply get_Some_in_range; eauto. }
  apply in_range_snoc_inv in R as (y & j & -> & Hy & Hj). rewrite (V y j Hy Hj) in Hx. now injection Hx.
Qed.

(** A pressure that is gyrotropic about the field (C40_ex): the result is zero. *)
Definition ex_axis : list arr := [one_cell [0%R]].
Definition ex_agyro : dspace fdata :=
  [("p"%string, [mk_dset 0 "p_0.bp" true "" (ex_axis, ex_p)]);
   ("b"%string, [mk_dset 1 "b_0.bp" true "" (ex_axis, ex_b); mk_dset 2 "b_1.bp" true "" (ex_axis, ex_b)])].

Example C88_gyrotropic_ex measure : measure = "swisdak"%string \/ measure = "frobenius"%string ->
  exists ds' n, agyro_command measure "p" "b" None "l" ex_agyro = Ok ds' /\ under ds' "agyro" = [n] /\
    aget "p"%string ds' = aget "p"%string ex_agyro /\
    forall idx x, get (snd (ds_data n)) idx = Some x -> x = 0%R.
Proof.
  intros Hm.
  assert (P1 : plain_tag "p") by (split; [discriminate|reflexivity]).
  assert (P2 : plain_tag "b") by (split; [discriminate|reflexivity]).
  assert (K1 : aget "p"%string ex_agyro <> None) by discriminate.
  assert (K2 : aget "b"%string ex_agyro <> None) by discriminate.
  assert (Sp : shows [1] 6 ex_p _) by (apply one_cell_shows; reflexivity).
  assert (Sb : shows [1] 3 ex_b _) by (apply one_cell_shows; reflexivity).
  assert (Hin : forall k p b, nth_error (act ex_agyro "p") k = Some p -> nth_error (act ex_agyro "b") k = Some b -> p = (ex_axis, ex_p) /\ b = (ex_axis, ex_b)).
  { intros [|[|k]] p b; cbn; intros H1 H2; try discriminate; injection H1 as <-; injection H2 as <-; auto. }
  destruct (C88_gyrotropic measure "p" "b" None "l" ex_agyro Hm P1 P2 K1 K2) as (ds' & news & E & Hu & L & Z).
  { intros k p b H1 H2. destruct (Hin k p b H1 H2) as [-> ->]. exists [1], 6, 3. eexists. eexists. exists (fun _ => 5%R), (fun _ => 2%R).
    cbn [fst snd]. split; [exact Sp|]. split; [exact Sb|]. split; [lia|]. split; [lia|]. split; [|split].
    - intros x _. exists 1. split; [lia|]. cbn. lra.
    - intros x _. lra.
    - intros x i j _ Hi Hj. unfold tensor_of, gyro, dot, sum3, delta.
      destruct i as [|[|[|i]]]; try lia; destruct j as [|[|[|j]]]; try lia; cbn; lra. }
  destruct (C88_agyro measure "p" "b" None "l" ex_agyro Hm P1 P2 K1 K2) as (ds2 & news2 & E2 & Ho & _).
  { intros k p b H1 H2. destruct (Hin k p b H1 H2) as [-> ->]. exists [1], 6, 3. eexists. eexists. cbn [snd]. split; [exact Sp|]. split; [exact Sb|]. split; lia. }
  rewrite E in E2. injection E2 as <-.
  cbn in L. destruct news as [|n [|? ?]]; try discriminate L. exists ds', n. split; [exact E|]. split; [exact Hu|].
  split; [apply Ho; discriminate|]. intros idx x. apply Z. now left.
Qed.

Print Assumptions C88_agyro. Print Assumptions C88_gyrotropic.
