(** * Strided arrays and mapped grids *)
From Coq Require Import String Ascii List Arith ZArith Bool Lia Reals Lra Sorted.
From Verif Require Import Prelude PreludeFacts NdArray Ev_Model Ev_Arith Tools_Arr Draw_Model Draw_Spec Draw_Proofs Draw_Proofs2 Draw_Props.
Import ListNotations.
Open Scope list_scope.
Open Scope nat_scope.

(** ** [range(n)[s::st]] *)

Lemma strided_S s st n : strided s st (S n) = strided s st n ++ (if (s <=? n) && ((n - s) mod st =? 0) then [n] else []).
Proof. unfold strided. rewrite seq_S, filter_app. reflexivity. Qed.

Lemma strided_spec s st n : 0 < st ->
  exists cnt, strided s st n = List.map (fun k => s + k * st) (seq 0 cnt) /\ forall i, i < cnt <-> s + i * st < n.
Proof.
  intros Hst. induction n as [|n (cnt & E & C)].
  - exists 0. split; [reflexivity|]. intros i. lia.
  - rewrite strided_S, E. destruct (Nat.leb_spec s n) as [Hs|Hs]; cbn [andb].
    + destruct (Nat.eqb_spec ((n - s) mod st) 0) as [Hm|Hm].
      * assert (Hd : n = s + (n - s) / st * st).
        { pose proof (Nat.div_mod (n - s) st). lia. }
        assert (Q : cnt = (n - s) / st).
        { set (q := (n - s) / st) in *. pose proof (C q) as Cq. pose proof (C (pred q)) as Cp.
          destruct (Nat.lt_trichotomy cnt q) as [L|[->|L]]; [|reflexivity|].
          - destruct q as [|q]; [lia|]. cbn [pred] in Cp. assert (s + q * st < n) by lia. pose proof (C cnt). assert (cnt <= q) by lia.
            assert (s + cnt * st <= s + q * st) by (apply Nat.add_le_mono_l, Nat.mul_le_mono_r; lia). lia.
          - lia. }
        exists (S cnt). split.
        -- rewrite seq_S, map_app. cbn [List.map Nat.add]. do 2 f_equal. subst cnt. exact Hd.
        -- intros i. split; intros Hi.
           ++ destruct (Nat.eq_dec i cnt) as [->|]; [subst cnt; lia|]. pose proof (proj1 (C i)). lia.
           ++ destruct (Nat.lt_ge_cases i (S cnt)) as [|L]; [assumption|]. exfalso.
              assert (S cnt * st <= i * st) by (apply Nat.mul_le_mono_r; lia). cbn [Nat.mul] in H. subst cnt. lia.
      * rewrite app_nil_r. exists cnt. split; [reflexivity|]. intros i. rewrite C. split; [lia|]. intros Hi.
        assert (s + i * st <> n); [|lia]. intros E'. apply Hm. replace (n - s) with (i * st) by lia. apply Nat.mod_mul. lia.
    + rewrite app_nil_r. exists cnt. split; [reflexivity|]. intros i. rewrite C. split; [lia|]. intros Hi.
      assert (0 <= i * st) by lia. lia.
Qed.

(** The element taken along each axis. *)
Definition pick (sels : list (list nat)) (idx : list nat) : list nat :=
  List.map (fun si => nth (snd si) (fst si) 0) (combine sels idx).

Lemma holds_take sh a f sels :
  holds sh a f -> Forall2 (fun s n => forall i, In i s -> i < n) sels sh ->
  holds (List.map (@length nat) sels) (take sels a) (fun idx => f (pick sels idx)).
Proof.
  intros (W & Sa & V) F. split; [apply wf_take; [exact W|now rewrite Sa]|]. split; [reflexivity|].
  intros x Hx. assert (P : Forall2 (fun si j => nth_error (fst si) (snd si) = Some j) (combine sels x) (pick sels x)).
  { unfold pick. clear -Hx. revert x Hx. induction sels as [|s sels IH]; intros x Hx; cbn [List.map] in Hx.
    - inversion Hx; subst. constructor.
    - inversion Hx as [|i ? x' ? Hi Hx']; subst. cbn [combine List.map]. constructor; [|apply IH, Hx']. cbn [fst snd]. now apply nth_error_nth'. }
  rewrite (get_take sels a x (pick sels x)); [|exact W|now rewrite Sa|exact Hx|exact P].
  apply V. clear -F Hx P. unfold in_range. revert x Hx P. induction F as [|s n sels sh Hs F IH]; intros x Hx P.
  - inversion Hx; subst. constructor.
  - cbn [List.map] in Hx. inversion Hx as [|i ? x' ? Hi Hx']; subst. unfold pick in *. cbn [combine List.map fst snd] in *.
    constructor; [apply Hs, nth_In, Hi|]. apply IH; [exact Hx'|]. now inversion P.
Qed.

(** ** The mean over collapsed axes *)

Lemma box_mean_ext pat : forall F G, (forall x, F x = G x) -> box_mean pat F = box_mean pat G.
Proof.
  induction pat as [|[i|] pat IH]; intros F G H; cbn [box_mean]; [apply H|apply IH; intros; apply H|].
  rewrite (IH (fun x => F (0 :: x)) (fun x => G (0 :: x))) by (intros; apply H).
  rewrite (IH (fun x => F (1 :: x)) (fun x => G (1 :: x))) by (intros; apply H). reflexivity.
Qed.

Lemma box_mean_some x : forall F, box_mean (List.map Some x) F = F x.
Proof. induction x as [|i x IH]; intros F; cbn [List.map box_mean]; [reflexivity|]. apply IH. Qed.

Lemma box_mean_split p q : forall F,
  box_mean (p ++ None :: q) F = ((box_mean (p ++ Some 0%nat :: q) F + box_mean (p ++ Some 1%nat :: q) F) / 2)%R.
Proof.
  induction p as [|[i|] p IH]; intros F; cbn [app box_mean]; [reflexivity|apply IH|].
  rewrite !IH. lra.
Qed.

Lemma spread_app l1 : forall k idx x1 r x2,
  length x1 = l1 -> (forall j, k <= j < k + l1 -> mem j idx = false) ->
  spread k idx (l1 + r) (x1 ++ x2) = List.map Some x1 ++ spread (k + l1) idx r x2.
Proof.
  induction l1 as [|l1 IH]; intros k idx x1 r x2 L M; destruct x1 as [|i x1]; try discriminate.
  - now rewrite Nat.add_0_r.
  - cbn [Nat.add spread app List.map]. rewrite M by lia. f_equal. rewrite IH; [|cbn in L; lia|intros; apply M; lia].
    now rewrite Nat.add_succ_r.
Qed.

Lemma spread_ext r : forall k idx idx' x, (forall j, k <= j < k + r -> mem j idx = mem j idx') -> spread k idx r x = spread k idx' r x.
Proof.
  induction r as [|r IH]; intros k idx idx' x H; [reflexivity|]. cbn [spread]. rewrite H by lia.
  destruct (mem k idx'); [f_equal; apply IH; intros; apply H; lia|]. destruct x; [reflexivity|]. f_equal. apply IH. intros; apply H; lia.
Qed.

Lemma drop_at_ext' {A} (l : list A) : forall k idx idx', (forall j, k <= j < k + length l -> mem j idx = mem j idx') -> drop_at k idx l = drop_at k idx' l.
Proof.
  induction l as [|a l IH]; intros k idx idx' H; [reflexivity|]. cbn [drop_at]. fold (mem k idx). fold (mem k idx').
  rewrite H by (cbn [length]; lia). rewrite (IH (S k) idx idx'); [reflexivity|]. intros j Hj. apply H. cbn [length]. lia.
Qed.

Lemma loop_app {A S} (f : S -> A -> res S) l1 : forall l2 s,
  loop f (l1 ++ l2) s = let* s' := loop f l1 s in loop f l2 s'.
Proof.
  induction l1 as [|a l1 IH]; intros l2 s; [reflexivity|]. cbn [app loop]. destruct (f s a) as [s'|e]; cbn [bind]; [apply IH|reflexivity].
Qed.

Lemma means idx : forall sh g F,
  StronglySorted lt idx -> (forall i, In i idx -> nth_error sh i = Some 2) -> holds sh g F ->
  exists w, loop (fun a i => mean_axis i a) (rev idx) g = Ok w /\
    holds (drop_at 0 idx sh) w (fun x => box_mean (spread 0 idx (length sh) x) F).
Proof.
  induction idx as [|i idx IH]; intros sh g F So H2 Hg.
  - exists g. split; [reflexivity|]. rewrite drop_at_none by reflexivity. eapply holds_ext; [exact Hg|].
    intros x Hx. replace (spread 0 [] (length sh) x) with (List.map (@Some nat) x); [symmetry; apply box_mean_some|].
    pose proof (spread_app (length x) 0 [] x 0 []) as E. rewrite Nat.add_0_r, app_nil_r in E. cbn [spread] in E.
    rewrite app_nil_r in E. rewrite <- (in_range_length _ _ Hx). symmetry. apply E; auto.
  - inversion So as [|? ? So' Lt]; subst. rewrite Forall_forall in Lt.
    destruct (IH sh g F So') as (w & Ew & Hw); [intros j Hj; apply H2; right; exact Hj|exact Hg|].
    cbn [rev]. rewrite loop_app, Ew. cbn [bind loop].
    pose proof (H2 i (or_introl eq_refl)) as Ei. apply nth_error_split in Ei as (l1 & l2 & Esh & L1).
    assert (M1 : forall j, j <= i -> mem j idx = false).
    { intros j Hj. destruct (mem j idx) eqn:M; [|reflexivity]. apply mem_In in M. specialize (Lt j M). lia. }
    assert (D1 : drop_at 0 idx sh = l1 ++ 2 :: drop_at (S i) idx l2).
    { rewrite Esh, drop_at_app, (drop_at_none l1) by (intros j Hj; apply M1; lia). f_equal. cbn [drop_at Nat.add]. fold (mem (length l1) idx).
      rewrite M1 by lia. now rewrite L1. }
    assert (D2 : drop_at 0 (i :: idx) sh = l1 ++ drop_at (S i) idx l2).
    { rewrite Esh, drop_at_app, (drop_at_none l1).
      2:{ intros j Hj. unfold mem. cbn [existsb]. fold (mem j idx). rewrite M1 by lia. destruct (Nat.eqb_spec j i); [lia|reflexivity]. }
      f_equal. cbn [drop_at Nat.add]. rewrite L1. cbn [existsb]. rewrite Nat.eqb_refl. cbn [orb]. apply drop_at_ext'. intros j Hj. unfold mem.
      cbn [existsb]. destruct (Nat.eqb_spec j i); [lia|reflexivity]. }
    unfold mean_axis. pose proof Hw as (_ & Sw & _). rewrite Sw, D1.
    rewrite nth_error_app2 by lia. rewrite L1, Nat.sub_diag. cbn [nth_error bind]. eexists. split; [reflexivity|].
    rewrite D2. subst i.
    replace (firstn (length l1) (l1 ++ 2 :: drop_at (S (length l1)) idx l2)) with l1 by (rewrite firstn_app, Nat.sub_diag, firstn_all, app_nil_r; reflexivity).
    replace (skipn (S (length l1)) (l1 ++ 2 :: drop_at (S (length l1)) idx l2)) with (drop_at (S (length l1)) idx l2).
    2:{ rewrite skipn_app. replace (S (length l1) - length l1) with 1 by lia. rewrite skipn_all2 by lia. reflexivity. }
    eapply holds_ext; [apply holds_tab|]. intros x Hx. cbv beta.
    unfold in_range in Hx. apply Forall2_app_inv_r in Hx as (x1 & x2 & Hx1 & Hx2 & ->).
    assert (Lx : length x1 = length l1) by (eapply Forall2_length; exact Hx1).
    assert (Fx : firstn (length l1) (x1 ++ x2) = x1) by (rewrite <- Lx, firstn_app, Nat.sub_diag, firstn_all; apply app_nil_r).
    assert (Kx : skipn (length l1) (x1 ++ x2) = x2) by (rewrite <- Lx, skipn_app, Nat.sub_diag, skipn_all; reflexivity).
    rewrite Fx, Kx.
    assert (V : forall k, k < 2 -> val w (x1 ++ k :: x2) = box_mean (List.map Some x1 ++ Some k :: spread (S (length l1)) idx (length l2) x2) F).
    { intros k Hk. rewrite (holds_val _ _ _ _ Hw).
      2:{ rewrite D1. apply Forall2_app; [exact Hx1|]. constructor; [exact Hk|exact Hx2]. }
      f_equal. rewrite Esh, app_length. cbn [length]. rewrite spread_app; [|exact Lx|intros j Hj; apply M1; lia].
      f_equal. cbn [spread Nat.add]. rewrite M1 by lia. reflexivity. }
    cbn [seq List.map rsum fold_right]. rewrite !V by lia. rewrite Esh, app_length. cbn [length].
    rewrite spread_app; [|exact Lx|].
    2:{ intros j Hj. unfold mem. cbn [existsb]. fold (mem j idx). rewrite M1 by lia. destruct (Nat.eqb_spec j (length l1)); [lia|reflexivity]. }
    cbn [spread Nat.add]. unfold mem at 1. cbn [existsb]. rewrite Nat.eqb_refl. cbn [orb].
    rewrite (spread_ext (length l2) (S (length l1)) (length l1 :: idx) idx).
    2:{ intros j Hj. unfold mem. cbn [existsb]. destruct (Nat.eqb_spec j (length l1)); [lia|reflexivity]. }
    rewrite box_mean_split. cbn [INR]. lra.
Qed.

Lemma collapsed_sorted n cells idx : collapsed n cells = Ok idx -> n = length cells -> StronglySorted lt idx.
Proof.
  unfold collapsed. intros E ->. rewrite (mapM_all_ok _ (fun k => (k, nth k cells 0 <=? 1))) in E.
  2:{ intros k Hk. apply in_seq in Hk. rewrite (nth_error_nth' cells 0) by lia. reflexivity. }
  cbn [bind] in E. injection E as <-.
  assert (G : forall r k, StronglySorted lt (List.map fst (filter snd (List.map (fun k => (k, nth k cells 0 <=? 1)) (seq k r)))) /\
           Forall (fun j => k <= j) (List.map fst (filter snd (List.map (fun k => (k, nth k cells 0 <=? 1)) (seq k r))))).
  { induction r as [|r IH]; intros k; cbn [seq List.map filter].
    - split; constructor.
    - destruct (IH (S k)) as (A & B). cbn [snd]. destruct (nth k cells 0 <=? 1); cbn [List.map fst].
      + split; [constructor; [exact A|]|constructor; [lia|]]; eapply Forall_impl; try exact B; cbn; intros; lia.
      + split; [exact A|]. eapply Forall_impl; [|exact B]. cbn. intros; lia. }
  apply G.
Qed.

Lemma spread_none r : forall k idx x, (forall j, k <= j < k + r -> mem j idx = true) -> spread k idx r x = List.map (fun _ => None) (seq k r).
Proof.
  induction r as [|r IH]; intros k idx x H; [reflexivity|]. cbn [spread seq List.map]. rewrite H by lia. f_equal.
  apply IH. intros j Hj. apply H. lia.
Qed.
Lemma spread_one r : forall k idx a i,
  (forall j, k <= j < k + r -> mem j idx = negb (j =? a)) -> k <= a < k + r ->
  spread k idx r [i] = List.map (fun j => if j =? a then Some i else None) (seq k r).
Proof.
  induction r as [|r IH]; intros k idx a i H Ha; [lia|]. cbn [spread seq List.map]. rewrite H by lia.
  destruct (Nat.eqb_spec k a) as [->|N]; cbn [negb]; f_equal.
  - rewrite spread_none.
    + apply map_ext_in. intros j Hj. apply in_seq in Hj. destruct (Nat.eqb_spec j a); [lia|reflexivity].
    + intros j Hj. rewrite H by lia. destruct (Nat.eqb_spec j a); [lia|reflexivity].
  - apply IH; [|lia]. intros j Hj. apply H. lia.
Qed.
Lemma spread_two r : forall k idx a b i j,
  (forall l, k <= l < k + r -> mem l idx = negb ((l =? a) || (l =? b))) -> k <= a -> a < b -> b < k + r ->
  spread k idx r [i; j] = List.map (fun l => if l =? a then Some i else if l =? b then Some j else None) (seq k r).
Proof.
  induction r as [|r IH]; intros k idx a b i j H Ha Hab Hb; [lia|]. cbn [spread seq List.map]. rewrite H by lia.
  destruct (Nat.eqb_spec k a) as [->|N]; cbn [negb orb].
  - f_equal. rewrite (spread_one r (S a) idx b j).
    + apply map_ext_in. intros l Hl. apply in_seq in Hl. destruct (Nat.eqb_spec l a); [lia|reflexivity].
    + intros l Hl. rewrite H by lia. destruct (Nat.eqb_spec l a); [lia|reflexivity].
    + lia.
  - destruct (Nat.eqb_spec k b); [lia|]. cbn [negb]. f_equal. apply IH; try lia. intros l Hl. apply H. lia.
Qed.

(** ** Squeezing a mapped grid with two remaining axes *)

Definition mapped (cells : list nat) (X : nat -> list nat -> R) (m : nat) (f : list nat -> nat -> R) (d : pd) : Prop :=
  Forall (fun n => 1 <= n) cells /\ length cells <= 6 /\
  mapped_grid cells X (p_grid d) /\ p_cells d = cells /\ shows cells m (p_vals d) f.

Lemma squeeze_mapped cells X m f d a n b p :
  mapped cells X m f d -> only_axes cells a n b p ->
  exists g h w labels,
    squeeze_data (live_dims cells) d = Ok (mk_pd [g; h] [n; p] w, labels) /\ live_dims cells = 2 /\
    holds [S n; S p] g (fun x => box_mean (corner2 (length cells) a (hd 0 x) b (nth 1 x 0)) (X a)) /\
    holds [S n; S p] h (fun x => box_mean (corner2 (length cells) a (hd 0 x) b (nth 1 x 0)) (X b)) /\
    shows [n; p] m w (fun x c => f (cell2 (length cells) a (hd 0 x) b (nth 1 x 0)) c).
Proof.
  intros (P & L6 & (Lg & G) & Ec & Sv) A.
  destruct (collapsed_spec cells) as (idx & Ei & O). pose proof (collapsed_sorted _ _ _ Ei eq_refl) as So.
  destruct (ones_axes _ _ _ _ _ _ O A) as (Hab & Lb & M). pose proof A as (_ & Hn & Hp & Ea & Eb & H1).
  pose proof (ones_one cells idx O P) as O1.
  assert (Ed : drop_at 0 idx cells = [n; p]).
  { apply (drop_at_two cells 0 idx a b n p); [intros j Hj; apply M; lia|lia|lia|now rewrite Nat.sub_0_r|now rewrite Nat.sub_0_r]. }
  destruct (nth_error (p_grid d) a) as [g|] eqn:Eg; [|apply nth_error_None in Eg; lia].
  destruct (nth_error (p_grid d) b) as [h|] eqn:Eh; [|apply nth_error_None in Eh; lia].
  assert (Edg : drop_at 0 idx (p_grid d) = [g; h]).
  { apply (drop_at_two (p_grid d) 0 idx a b g h); [intros j Hj; apply M; lia|lia|lia|now rewrite Nat.sub_0_r|now rewrite Nat.sub_0_r]. }
  assert (L2 : live_dims cells = 2) by (rewrite (live_drop cells idx P O), Ed; reflexivity).
  assert (F2 : forall i j, fill 0 idx (length cells) [i; j] = cell2 (length cells) a i b j).
  { intros i j. apply fill_two; try lia. intros l Hl. apply M; lia. }
  assert (S2 : forall i j, spread 0 idx (length cells) [i; j] = corner2 (length cells) a i b j).
  { intros i j. apply spread_two; try lia. intros l Hl. apply M; lia. }
  assert (H2 : forall i, In i idx -> nth_error (List.map S cells) i = Some 2).
  { intros i Hi. apply mem_In in Hi. destruct (O1 i Hi) as (_ & E). now rewrite nth_error_map, E. }
  assert (DS : drop_at 0 idx (List.map S cells) = [S n; S p]) by (rewrite drop_at_map, Ed; reflexivity).
  destruct (means idx _ g (X a) So H2 (G a g Eg)) as (g' & Eg' & Hg'). destruct (means idx _ h (X b) So H2 (G b h Eh)) as (h' & Eh' & Hh').
  rewrite DS in Hg', Hh'. rewrite map_length in Hg', Hh'.
  assert (Hg2 : holds [S n; S p] g' (fun x => box_mean (corner2 (length cells) a (hd 0 x) b (nth 1 x 0)) (X a))).
  { eapply holds_ext; [exact Hg'|]. intros x Hx. apply in_two in Hx as (i & j & -> & _). cbn [hd nth]. now rewrite S2. }
  assert (Hh2 : holds [S n; S p] h' (fun x => box_mean (corner2 (length cells) a (hd 0 x) b (nth 1 x 0)) (X b))).
  { eapply holds_ext; [exact Hh'|]. intros x Hx. apply in_two in Hx as (i & j & -> & _). cbn [hd nth]. now rewrite S2. }
  unfold squeeze_data. rewrite Lg, Ec, L2. destruct (Nat.leb_spec (length cells) 2) as [HL|HL].
  - assert (a = 0) by lia. assert (b = 1) by lia. assert (EL : length cells = 2) by lia. subst a b.
    assert (MN : idx = []).
    { destruct idx as [|i idx']; [reflexivity|]. exfalso. assert (I : mem i (i :: idx') = true) by (apply mem_In; left; reflexivity).
      destruct (O1 i I) as (Li & _). rewrite M in I by lia. destruct i as [|[|]]; [discriminate I|discriminate I|lia]. }
    subst idx. rewrite (drop_at_none cells) in Ed by reflexivity. rewrite (drop_at_none (p_grid d)) in Edg by reflexivity.
    cbn [rev loop] in Eg', Eh'. injection Eg' as <-. injection Eh' as <-.
    exists g, h, (p_vals d), (seq 0 6). split; [destruct d; cbn in *; subst; reflexivity|]. split; [reflexivity|].
    split; [exact Hg2|]. split; [exact Hh2|]. rewrite Ed in Sv at 1. eapply shows_ext; [exact Sv|]. intros x c Hx _.
    apply in_two in Hx as (i & j & -> & _). cbn [hd nth]. now rewrite EL.
  - rewrite Ei. cbn [bind].
    destruct (squeeze_shows cells m (p_vals d) f idx Sv O1) as (w & Ew & Sw).
    assert (B6 : existsb (fun i => 6 <=? i) idx = false).
    { destruct (existsb _ idx) eqn:B; [|reflexivity]. apply existsb_exists in B as (i & Hi & B). apply Nat.leb_le in B.
      apply mem_In in Hi. destruct (O1 i Hi). lia. }
    assert (Eq : List.map squeeze_all (p_grid d) = p_grid d).
    { rewrite <- (map_id (p_grid d)) at 2. apply map_ext_in. intros q Hq. apply In_nth_error in Hq as (k & Ek).
      apply squeeze_all_id. destruct (G k q Ek) as (_ & -> & _). rewrite Forall_map. eapply Forall_impl; [|exact P]. cbn. intros; lia. }
    rewrite Eq, Edg, B6, Ew.
    assert (NO : idx <> []).
    { intros ->. rewrite drop_at_none in Ed by reflexivity. rewrite Ed in HL. cbn in HL. lia. }
    destruct idx as [|i0 idx0]; [contradiction|]. cbv zeta iota. cbn [bind].
    destruct (G a g Eg) as (_ & Sg & _). rewrite Sg, map_length. destruct (Nat.ltb_spec 1 (length cells)); [|lia].
    cbn [length Nat.ltb Nat.leb firstn skipn mapM]. rewrite Eg', Eh'. cbn [bind app].
    exists g', h', w, (drop_at 0 (i0 :: idx0) (seq 0 6)). rewrite Ed in *. split; [reflexivity|]. split; [reflexivity|].
    split; [exact Hg2|]. split; [exact Hh2|]. eapply shows_ext; [exact Sw|]. intros x c Hx _.
    apply in_two in Hx as (i & j & -> & _). cbn [hd nth]. now rewrite F2.
Qed.
