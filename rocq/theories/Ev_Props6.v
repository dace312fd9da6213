(** * Properties C24 (blanks), C78 (dataset tokens of [ev]) and C79 (dot product
    and reductions of [ev]). *)
From Coq Require Import String Ascii List Arith ZArith QArith Qabs Bool Lia.
From Verif Require Import Prelude PreludeFacts NdArray GData_Model Select_Model DataSpace_Model DataSpace_Spec
  DataSpace_Proofs DataSpace_Proofs2 DataSpace_Proofs3 DataSpace_Props Ev_Model Ev_Arith Ev_Spec Ev_Props Ev_Props2
  Ev_Props3 Ev_Props4 Ev_Props5.
Import ListNotations.
Open Scope list_scope.

(** ** Blanks *)

Definition word (w : string) : Prop := w <> ""%string /\ has_char " " w = false.

(** The chain [c] is the words [ws] with one or more blanks between them and any
    number of blanks before and after. *)
Inductive laid_out : list string -> string -> Prop :=
| lo_empty : laid_out [] ""
| lo_blank ws c : laid_out ws c -> laid_out ws (" " ++ c)
| lo_last w : word w -> laid_out [w] w
| lo_word w ws c : word w -> laid_out ws c -> laid_out (w :: ws) (w ++ " " ++ c).

Theorem C24_blanks ws c : laid_out ws c -> tokens c = ws.
Proof.
  unfold tokens. induction 1 as [|ws c _ IH|w [Hn Hb]|w ws c [Hn Hb] _ IH].
  - reflexivity.
  - cbn [String.append split_on]. rewrite Ascii.eqb_refl. cbn [List.filter]. exact IH.
  - rewrite split_on_none by exact Hb. cbn [List.filter]. destruct (String.eqb_spec w ""); [contradiction|reflexivity].
  - change (w ++ " " ++ c)%string with (w ++ String " " c)%string. rewrite split_on_app by exact Hb.
    cbn [List.filter]. destruct (String.eqb_spec w ""); [contradiction|]. cbn [negb]. now rewrite IH.
Qed.

Example C24_blanks_ex : laid_out ["f[0]"; "2"; "pow"]%string "  f[0]   2 pow ".
Proof.
  change "  f[0]   2 pow "%string with (" " ++ " " ++ ("f[0]" ++ " " ++ (" " ++ " " ++ ("2" ++ " " ++ ("pow" ++ " " ++ "")))))%string.
  do 2 apply lo_blank. apply lo_word; [split; [discriminate|reflexivity]|]. do 2 apply lo_blank.
  apply lo_word; [split; [discriminate|reflexivity]|]. apply lo_word; [split; [discriminate|reflexivity]|]. apply lo_empty.
Qed.

(** ** C78: what a dataset token stands for *)

(** [head], [head[set]], [head[set][comp]], each with [.key] or without. *)
Definition token (head : string) (br : option (string * option string)) (key : option string) : string :=
  (head ++
   (match br with
    | None => ""
    | Some (i, c) => "[" ++ i ++ "]" ++ match c with None => "" | Some c => "[" ++ c ++ "]" end
    end ++
    match key with None => "" | Some k => "." ++ k end))%string.

(** No bracket and no full stop. *)
Definition plain (s : string) : Prop :=
  has_char "[" s = false /\ has_char "]" s = false /\ has_char "." s = false.

Definition plain_token (head : string) (br : option (string * option string)) (key : option string) : Prop :=
  plain head /\
  match br with None => True | Some (i, c) => plain i /\ match c with None => True | Some c => plain c end end /\
  match key with None => True | Some k => plain k /\ k <> ""%string end.

Lemma app_nil_str s : (s ++ "")%string = s.
Proof. induction s as [|a s IH]; [reflexivity|]. cbn. now rewrite IH. Qed.

Lemma token_parts head br key :
  plain_token head br key ->
  tok_head (token head br key) =
    match br, key with None, Some k => (head ++ "." ++ k)%string | _, _ => head end /\
  tok_set (token head br key) = option_map fst br /\
  tok_comp (token head br key) = match br with Some (_, c) => c | None => None end /\
  tok_key (token head br key) = key.
Proof.
  intros ((H1 & H2 & H3) & Hb & Hk).
  assert (Kd : match key with Some k => String.eqb k "" = false | None => True end).
  { destruct key; [|exact I]. apply String.eqb_neq. tauto. }
  assert (T : forall s k, has_char "." s = false -> has_char "." k = false ->
    tok_key (s ++ "." ++ k) = if String.eqb k "" then None else Some k).
  { intros s k A B. unfold tok_key. change ("." ++ k)%string with (String "." k). rewrite split_on_app, split_on_none by auto. reflexivity. }
  assert (T0 : forall s, has_char "." s = false -> tok_key s = None).
  { intros s A. unfold tok_key. now rewrite split_on_none. }
  assert (E : forall i r, has_char "]" i = false -> hd ""%string (split_on "]" (i ++ "]" ++ r)) = i).
  { intros i r A. change ("]" ++ r)%string with (String "]" r). now rewrite split_on_app. }
  unfold token. destruct br as [[i c]|].
  - destruct Hb as ((I1 & I2 & I3) & Hc).
    assert (Hs : forall x, split_on "[" (head ++ ("[" ++ i ++ "]" ++ x)) = head :: split_on "[" (i ++ "]" ++ x)).
    { intros x. change ("[" ++ i ++ "]" ++ x)%string with (String "[" (i ++ "]" ++ x)). now rewrite split_on_app. }
    destruct c as [c|].
    + destruct Hc as (C1 & C2 & C3).
      set (k := match key with None => ""%string | Some k => ("." ++ k)%string end).
      assert (K1 : has_char "[" k = false).
      { subst k. destruct key as [k|]; [|reflexivity]. cbn [String.append has_char]. now destruct Hk as ((-> & _) & _). }
      assert (Eq : (head ++ (("[" ++ i ++ "]" ++ "[" ++ c ++ "]") ++ k) = head ++ ("[" ++ i ++ "]" ++ ("[" ++ (c ++ "]" ++ k))))%string).
      { f_equal. rewrite !app_assoc_str. reflexivity. }
      rewrite Eq. unfold tok_head, tok_set, tok_comp. rewrite Hs.
      assert (Hs2 : split_on "[" (i ++ "]" ++ ("[" ++ (c ++ "]" ++ k))) = [(i ++ "]")%string; (c ++ "]" ++ k)%string]).
      { rewrite <- app_assoc_str. change ("[" ++ (c ++ "]" ++ k))%string with (String "[" (c ++ "]" ++ k)).
        rewrite split_on_app by (rewrite has_char_app, I1; reflexivity).
        now rewrite split_on_none by (rewrite !has_char_app, C1, K1; reflexivity). }
      rewrite Hs2. cbn [hd option_map fst].
      assert (Ei : hd ""%string (split_on "]" (i ++ "]")) = i) by (apply (E i ""%string); auto).
      rewrite Ei, E by auto. split; [reflexivity|]. split; [reflexivity|]. split; [reflexivity|].
      subst k. destruct key as [k|].
      * destruct Hk as ((K2 & K3 & K4) & K5).
        replace (head ++ ("[" ++ i ++ "]" ++ ("[" ++ (c ++ "]" ++ ("." ++ k)))))%string
          with ((head ++ ("[" ++ i ++ "]" ++ ("[" ++ (c ++ "]")))) ++ ("." ++ k))%string by (rewrite !app_assoc_str; reflexivity).
        rewrite T; auto; [now rewrite Kd|]. rewrite !has_char_app, H3, I3, C3. reflexivity.
      * apply T0. rewrite !has_char_app, H3, I3, C3. reflexivity.
    + set (k := match key with None => ""%string | Some k => ("." ++ k)%string end).
      assert (K1 : has_char "[" k = false).
      { subst k. destruct key as [k|]; [|reflexivity]. cbn [String.append has_char]. now destruct Hk as ((-> & _) & _). }
      assert (Eq : (head ++ (("[" ++ i ++ "]" ++ "") ++ k) = head ++ ("[" ++ i ++ "]" ++ k))%string).
      { f_equal. rewrite !app_assoc_str. reflexivity. }
      rewrite Eq. unfold tok_head, tok_set, tok_comp. rewrite Hs.
      rewrite split_on_none by (rewrite !has_char_app, I1, K1; reflexivity). cbn [hd option_map fst]. rewrite E by auto.
      split; [reflexivity|]. split; [reflexivity|]. split; [reflexivity|].
      subst k. destruct key as [k|].
      * destruct Hk as ((K2 & K3 & K4) & K5).
        replace (head ++ ("[" ++ i ++ "]" ++ ("." ++ k)))%string
          with ((head ++ ("[" ++ i ++ "]")) ++ ("." ++ k))%string by (rewrite !app_assoc_str; reflexivity).
        rewrite T; auto; [now rewrite Kd|]. rewrite !has_char_app, H3, I3. reflexivity.
      * apply T0. rewrite !has_char_app, H3, I3. reflexivity.
  - cbn [String.append]. destruct key as [k|].
    + destruct Hk as ((K2 & K3 & K4) & K5).
      assert (N : has_char "[" (head ++ "." ++ k) = false) by (rewrite !has_char_app, H1, K2; reflexivity).
      unfold tok_head, tok_set, tok_comp. change (String "." k) with ("." ++ k)%string.
      rewrite split_on_none by exact N. cbn [hd option_map].
      split; [reflexivity|]. split; [reflexivity|]. split; [reflexivity|]. rewrite T by auto. now rewrite Kd.
    + rewrite app_nil_str. unfold tok_head, tok_set, tok_comp. rewrite split_on_none by exact H1.
      split; [reflexivity|]. split; [reflexivity|]. split; [reflexivity|]. now apply T0.
Qed.

Section Token.
  Context {G V M X : Type}.
  Context (psel : X -> option string -> res (G * V)) (meta : X -> list (string * M)) (meta_val : M -> V)
          (no_grid : G) (parse_float : string -> option V) (py_eval : string -> res V) (str_val : string -> V).
  Local Notation entry := (@entry G V M).
  Local Notation read_token := (read_token psel meta meta_val no_grid parse_float py_eval str_val).
  Local Notation read_ref := (read_ref psel meta meta_val no_grid).

  (** What the dataset [x] contributes: the array of the components [comp] with
      its grid, or the metadata entry [key] with no grid; the metadata of the
      dataset go along in both cases. *)
  Definition contributes (comp key : option string) (x : X) (e : entry) : Prop :=
    match key with
    | None => exists g v, psel x comp = Ok (g, v) /\ e = (g, v, meta x)
    | Some k => exists m, aget k (meta x) = Some m /\ e = (no_grid, meta_val m, meta x)
    end.

  (** The tag a token names: its head if that is a tag and a bracket follows or
      nothing does. *)
  Definition named_tag (tags : list string) (head : string) (br : option (string * option string))
      (key : option string) : option string :=
    match br, key with
    | None, Some _ => None
    | _, _ => if existsb (String.eqb head) tags then Some head else None
    end.

  Lemma mapM_forall2 {A B} (f : A -> res B) l l' : mapM f l = Ok l' <-> Forall2 (fun a b => f a = Ok b) l l'.
  Proof.
    revert l'. induction l as [|a l IH]; intros l'; cbn [mapM].
    - split; [intros [= <-]; constructor|inversion 1; reflexivity].
    - split.
      + destruct (f a) as [b|] eqn:Ea; [|discriminate]. cbn [bind]. destruct (mapM f l) as [bs|] eqn:Em; [|discriminate].
        cbn [bind]. intros [= <-]. constructor; [exact Ea|]. now apply IH.
      + inversion 1 as [|? ? ? ? H1 H2]; subst. rewrite H1. apply IH in H2. rewrite H2. reflexivity.
  Qed.

  (** The datasets the token stands for are those of the tag it names (whether
      active or not) or else all those [ev] works on, in order, cut down by the
      set index. *)
  Definition addressed (ds : dspace X) (tags : list string) (only_active : bool) (head : string)
      (br : option (string * option string)) (key : option string) (ts : list string) (pos : string -> list nat)
    : list ref :=
    List.filter (fun r => match named_tag tags head br key with Some _ => true | None => negb only_active || is_active ds r end)
      (selected ts pos).

  Lemma token_read ds tags oa head br key ts pos :
    plain_token head br key ->
    (starts_with "f" head = true \/ named_tag tags head br key <> None) ->
    (br = None -> forall k, key = Some k -> existsb (String.eqb (head ++ "." ++ k)) tags = false) ->
    names ds (named_tag tags head br key) ts ->
    (exists n ps, picks n (option_map fst br) ps) -> picks_under ds (option_map fst br) ts pos ->
    is_ref tags (token head br key) = true /\
    read_ref ds tags oa (token head br key) =
    let R := addressed ds tags oa head br key ts pos in
    let* es := mapM (fun r => match lookup ds r with
                              | Some d => read_one psel meta meta_val no_grid key (match br with Some (_, c) => c | None => None end) d
                              | None => Err KeyError end) R in
    Ok (es, (match rev R with [] => named_tag tags head br key | r :: _ => Some (fst r) end, option_map fst br)).
  Proof.
    intros Hp Hr Hk Hn Hx Hu. destruct (token_parts head br key Hp) as (P1 & P2 & P3 & P4).
    assert (Hin : in_list (tok_head (token head br key)) tags = match named_tag tags head br key with Some _ => true | None => false end).
    { rewrite P1. unfold named_tag, in_list. destruct br as [[i c]|]; [destruct (existsb _ _); reflexivity|].
      destruct key as [k|]; [now apply Hk|]. destruct (existsb _ _); reflexivity. }
    assert (Ht : (if in_list (tok_head (token head br key)) tags then Some (tok_head (token head br key)) else None) = named_tag tags head br key).
    { rewrite Hin, P1. unfold named_tag. destruct br as [[i c]|]; [destruct (existsb _ _); reflexivity|].
      destruct key as [k|]; [reflexivity|]. destruct (existsb _ _); reflexivity. }
    split.
    - unfold is_ref. rewrite Hin. destruct Hr as [Hr|Hr].
      + assert (S1 : starts_with "f" (token head br key) = true).
        { unfold token. destruct head as [|a h]; [discriminate|]. cbn in Hr |- *. now rewrite andb_true_r in Hr |- *. }
        now rewrite S1.
      + destruct (named_tag tags head br key); [apply orb_true_r|congruence].
    - rewrite (read_ref_spec psel meta meta_val no_grid ds tags oa (token head br key) ts pos); rewrite ?Ht, ?P2; auto.
      rewrite Hin, P3, P4.
      assert (ER : List.filter (fun r => (match named_tag tags head br key with Some _ => true | None => false end) || negb oa || is_active ds r) (selected ts pos)
                   = addressed ds tags oa head br key ts pos).
      { unfold addressed. apply filter_ext. intros r. destruct (named_tag tags head br key); reflexivity. }
      rewrite ER. reflexivity.
  Qed.

  (** A dataset token is read as data; the [k]-th element of what it pushes
      comes from the [k]-th dataset it stands for. *)
  Theorem C78_token ds tags oa head br key ts pos g i :
    plain_token head br key ->
    (starts_with "f" head = true \/ named_tag tags head br key <> None) ->
    (br = None -> forall k, key = Some k -> existsb (String.eqb (head ++ "." ++ k)) tags = false) ->
    names ds (named_tag tags head br key) ts ->
    (exists n ps, picks n (option_map fst br) ps) -> picks_under ds (option_map fst br) ts pos ->
    (read_token ds tags oa (token head br key) = Ok (Some (g, i)) ->
       Forall2 (fun r e => exists d, lookup ds r = Some d /\
                  contributes (match br with Some (_, c) => c | None => None end) key (ds_data d) e)
         (addressed ds tags oa head br key ts pos) g) /\
    (Forall2 (fun r e => exists d, lookup ds r = Some d /\
                  contributes (match br with Some (_, c) => c | None => None end) key (ds_data d) e)
         (addressed ds tags oa head br key ts pos) g ->
     exists i, read_token ds tags oa (token head br key) = Ok (Some (g, i))).
  Proof.
    intros Hp Hr Hk Hn Hx Hu. destruct (token_read ds tags oa head br key ts pos Hp Hr Hk Hn Hx Hu) as [Er Eq].
    unfold Ev_Model.read_token. rewrite Er, Eq. cbv zeta.
    set (f := fun r => match lookup ds r with Some d => _ | None => _ end).
    assert (F : forall r e, f r = Ok e <-> exists d, lookup ds r = Some d /\
                  contributes (match br with Some (_, c) => c | None => None end) key (ds_data d) e).
    { intros r e. subst f. cbn beta. split.
      - destruct (lookup ds r) as [d|]; [|discriminate]. intros H. exists d. split; [reflexivity|]. unfold read_one in H. unfold contributes.
        destruct key as [k|].
        + destruct (aget k (meta (ds_data d))) as [m|] eqn:Em; [|discriminate]. injection H as <-. eauto.
        + destruct (psel (ds_data d) _) as [[gg v]|] eqn:Ep; [|discriminate]. cbn [bind] in H. injection H as <-. eauto.
      - intros (d & -> & H). unfold read_one. unfold contributes in H. destruct key as [k|].
        + destruct H as (m & -> & ->). reflexivity.
        + destruct H as (gg & v & -> & ->). reflexivity. }
    split.
    - destruct (mapM f _) as [es|] eqn:Em; [|discriminate]. cbn [bind]. intros [= <- _]. apply mapM_forall2 in Em.
      clear - Em F. induction Em; constructor; auto. now apply F.
    - intros H. assert (Em : mapM f (addressed ds tags oa head br key ts pos) = Ok g).
      { apply mapM_forall2. clear - H F. induction H; constructor; auto. now apply F. }
      rewrite Em. cbn [bind]. eauto.
  Qed.

  (** A metadata key one of the datasets does not have is refused. *)
  Theorem C78_missing_key ds tags oa head br k ts pos r d :
    plain_token head br (Some k) ->
    (starts_with "f" head = true \/ named_tag tags head br (Some k) <> None) ->
    (br = None -> existsb (String.eqb (head ++ "." ++ k)) tags = false) ->
    names ds (named_tag tags head br (Some k)) ts ->
    (exists n ps, picks n (option_map fst br) ps) -> picks_under ds (option_map fst br) ts pos ->
    In r (addressed ds tags oa head br (Some k) ts pos) -> lookup ds r = Some d -> aget k (meta (ds_data d)) = None ->
    read_token ds tags oa (token head br (Some k)) = Err ClickFail.
  Proof.
    intros Hp Hr Hk Hn Hx Hu Hin Hd Ha.
    destruct (token_read ds tags oa head br (Some k) ts pos Hp Hr) as [Er Eq]; auto.
    { intros Hb k' [= <-]. auto. }
    unfold Ev_Model.read_token. rewrite Er, Eq. cbv zeta.
    assert (Hall : forall r, In r (addressed ds tags oa head br (Some k) ts pos) -> lookup ds r <> None).
    { intros r' H'. unfold addressed in H'. apply filter_In in H' as [H' _]. now apply (selected_lookup ds (option_map fst br) ts pos). }
    assert (Em : mapM (fun r => match lookup ds r with
                              | Some d => read_one psel meta meta_val no_grid (Some k) (match br with Some (_, c) => c | None => None end) d
                              | None => Err KeyError end) (addressed ds tags oa head br (Some k) ts pos) = Err ClickFail).
    { clear Eq. induction (addressed ds tags oa head br (Some k) ts pos) as [|a l IH]; [destruct Hin|]. cbn [mapM].
      destruct (lookup ds a) as [da|] eqn:Ea; [|exfalso; apply (Hall a); [now left|exact Ea]].
      destruct Hin as [->|Hin].
      - rewrite Hd in Ea. injection Ea as <-. unfold read_one. rewrite Ha. reflexivity.
      - unfold read_one at 1. destruct (aget k (meta (ds_data da))); [|reflexivity]. cbn [bind]. rewrite IH; auto.
        intros r' H'. apply Hall. now right. }
    rewrite Em. reflexivity.
  Qed.
End Token.

(** [elc[1][0].q] is a correct token, [elc[:1]] too. *)
Example C78_ex :
  plain_token "elc" (Some ("1"%string, None)) (Some "q"%string) /\
  token "elc" (Some ("1"%string, None)) (Some "q"%string) = "elc[1].q"%string /\
  t_read t_ds ["elc"; "ion"]%string true "elc[1].q" = Ok (Some ([(None, t_val (-1), [("m", 3); ("q", -1)]%string%Z)], Some (Some "elc", Some "1")))%string /\
  token "f" (Some (":1"%string, Some "0:1"%string)) None = "f[:1][0:1]"%string /\
  t_read t_ds ["elc"; "ion"]%string true "f[:1][0:1]" =
    Ok (Some ([(Some [], VArr (vec [1; 2]), [("m", 3); ("q", 1)]%string%Z);
               (Some [], VArr (vec [10; 20]), [("m", 3); ("z", 0)]%string%Z)], Some (Some "ion", Some ":1")))%string%Q /\
  t_read t_ds ["elc"; "ion"]%string true "f.z" = Err ClickFail.
Proof.
  split; [repeat split; discriminate|]. split; [reflexivity|]. split; [vm_compute; reflexivity|].
  split; [reflexivity|]. split; vm_compute; reflexivity.
Qed.

(** [tag.key] does not read the metadata of the datasets of the tag: the token
    is no reference unless the tag starts with f, and then it reads all tags. *)
Theorem C78_tag_key_refuted :
  t_read t_ds ["elc"; "ion"]%string true "elc.m" = Ok None /\
  t_ev "elc.m" (Some "r"%string) None false t_ds = Err ClickFail /\
  exists ds g i,
    aget "fast"%string ds = Some [t_d 1 true [1; 2]%Q [("m", 3)]%string%Z] /\
    t_read ds ["fast"; "slow"]%string true "fast.m" = Ok (Some (g, i)) /\
    List.map e_val g = [t_val 3; t_val 5].
Proof.
  split; [vm_compute; reflexivity|]. split; [vm_compute; reflexivity|].
  exists [("fast", [t_d 1 true [1; 2]%Q [("m", 3)]%string%Z]); ("slow", [t_d 2 true [3; 4]%Q [("m", 5)]%string%Z])]%string. eexists _, _.
  split; [reflexivity|]. split; vm_compute; reflexivity.
Qed.

(** ** C79: dot product and reductions *)

(** The sum of [f 0], ..., [f (n - 1)]. *)
Fixpoint total (n : nat) (f : nat -> Q) : Q := match n with O => 0%Q | S n' => (total n' f + f n')%Q end.

Lemma fold_total (f : nat -> Q) n : fold_left Qplus (List.map f (seq 0 n)) 0%Q = total n f.
Proof.
  induction n as [|n IH]; [reflexivity|]. rewrite seq_S, map_app, fold_left_app, IH. reflexivity.
Qed.

Lemma snoc_split (sh : list nat) : sh <> [] -> exists cc n, sh = cc ++ [n].
Proof. intros H. exists (removelast sh), (last sh 0%nat). now apply app_removelast_last. Qed.

Section C79.
  Context (ufun : string -> Q -> Q) (qpow : Q -> Q -> Q).

  (** [a b dot] on the command line. *)
  Definition dotted ga a gb b : res (grid * val) :=
    match cmds_q ufun qpow "dot" with Some (2%nat, f) => f [gb; ga] [VArr b; VArr a] | _ => Err NameError end.

  Theorem C79_dot ga a gb b cc nc :
    shape a = cc ++ [nc] -> shape b = cc ++ [nc] -> wf a -> wf b ->
    is_array (dotted ga a gb b) (cc ++ [1%nat])
      (fun i => total nc (fun c => at_ a (removelast i ++ [c]) * at_ b (removelast i ++ [c]))%Q).
  Proof.
    intros Ea Eb Wa Wb. unfold dotted. cbn [cmds_q String.eqb Ascii.eqb Bool.eqb bin]. unfold v_dot.
    destruct (qb_same Qmult a b) as (p & -> & Wp & Sp & Hp); [congruence|]. cbn [bind].
    unfold sum_last. rewrite Sp, Ea, rev_app_distr. cbn [rev app]. rewrite removelast_last.
    cbn [bind]. eexists _, _. split; [reflexivity|]. split; [apply wf_tabulate|]. split; [reflexivity|].
    intros idx Hi. rewrite get_tabulate by exact Hi. f_equal. rewrite <- fold_total. f_equal. apply map_ext_in.
    intros c Hc. apply in_seq in Hc. apply snoc_range in Hi as (i & z & -> & Hi & Hz). rewrite removelast_last.
    rewrite Hp; [reflexivity|]. rewrite Ea. apply in_range_app; [exact Hi|]. repeat constructor. lia.
  Qed.

  (** [a max], [a min], [a mean]: one number and no grid. *)
  Definition reduced (cmd : string) (ga : grid) (a : nda Q) : res (grid * val) :=
    match cmds_q ufun qpow cmd with Some (1%nat, f) => f [ga] [VArr a] | _ => Err NameError end.

  Definition number (r : Q) : val := VArr (mk_nda [1%nat] [r]).

  Lemma fold_qmax l x : let m := fold_left qmax l x in In m (x :: l) /\ forall y, In y (x :: l) -> (y <= m)%Q.
  Proof.
    revert x. induction l as [|y l IH]; intros x; cbn [fold_left].
    - split; [now left|]. intros z [<-|[]]. apply Qle_refl.
    - destruct (IH (qmax x y)) as [H1 H2].
      assert (Hq : (qmax x y = x \/ qmax x y = y) /\ (x <= qmax x y)%Q /\ (y <= qmax x y)%Q).
      { unfold qmax. destruct (Qle_bool x y) eqn:E.
        - apply Qle_bool_iff in E. auto using Qle_refl.
        - assert (~ (x <= y)%Q) by (rewrite <- Qle_bool_iff; congruence). apply Qnot_le_lt, Qlt_le_weak in H. auto using Qle_refl. }
      destruct Hq as (Q1 & Q2 & Q3). split.
      + destruct H1 as [H1|H1]; [|now right; right]. rewrite <- H1. destruct Q1 as [E|E]; rewrite E; [now left|now right; left].
      + intros z [<-|[<-|Hz]]; [eapply Qle_trans; [exact Q2|]|eapply Qle_trans; [exact Q3|]|]; apply H2; [now left|now left|now right].
  Qed.
  Lemma fold_qmin l x : let m := fold_left qmin l x in In m (x :: l) /\ forall y, In y (x :: l) -> (m <= y)%Q.
  Proof.
    revert x. induction l as [|y l IH]; intros x; cbn [fold_left].
    - split; [now left|]. intros z [<-|[]]. apply Qle_refl.
    - destruct (IH (qmin x y)) as [H1 H2].
      assert (Hq : (qmin x y = x \/ qmin x y = y) /\ (qmin x y <= x)%Q /\ (qmin x y <= y)%Q).
      { unfold qmin. destruct (Qle_bool x y) eqn:E.
        - apply Qle_bool_iff in E. auto using Qle_refl.
        - assert (~ (x <= y)%Q) by (rewrite <- Qle_bool_iff; congruence). apply Qnot_le_lt, Qlt_le_weak in H. auto using Qle_refl. }
      destruct Hq as (Q1 & Q2 & Q3). split.
      + destruct H1 as [H1|H1]; [|now right; right]. rewrite <- H1. destruct Q1 as [E|E]; rewrite E; [now left|now right; left].
      + intros z [<-|[<-|Hz]]; [eapply Qle_trans; [|exact Q2]|eapply Qle_trans; [|exact Q3]|]; apply H2; [now left|now left|now right].
  Qed.

  (** Every element of an array is at some index. *)
  Lemma flat_index (a : nda Q) x : wf a -> (In x (flat a) <-> exists idx, in_range (shape a) idx /\ get a idx = Some x).
  Proof.
    intros W. split.
    - intros H. apply In_nth_error in H as (k & Hk).
      assert (Hl : (k < prod (shape a))%nat). { unfold wf in W. rewrite <- W. apply nth_error_Some. congruence. }
      destruct (ravel_surj _ _ Hl) as (idx & Ei). exists idx. split; [now apply ravel_Some_in_range in Ei|]. unfold get. now rewrite Ei.
    - intros (idx & Hi & H). unfold get in H. destruct (ravel (shape a) idx); [|discriminate]. now apply nth_error_In in H.
  Qed.

  Theorem C79_max ga a g v :
    wf a -> reduced "max" ga a = Ok (g, v) ->
    g = Some [] /\ exists r, v = number r /\
      (exists idx, in_range (shape a) idx /\ get a idx = Some r) /\
      forall idx x, get a idx = Some x -> (x <= r)%Q.
  Proof.
    intros W H. unfold reduced in H. cbn [cmds_q String.eqb Ascii.eqb Bool.eqb reduce] in H. unfold arr_max in H.
    destruct (flat a) as [|x l] eqn:El; [discriminate|]. cbn [bind] in H. injection H as <- <-. split; [reflexivity|].
    destruct (fold_qmax l x) as [H1 H2]. rewrite <- El in H1, H2. eexists. split; [reflexivity|]. split; [now apply flat_index|].
    intros idx y Hy. apply H2, flat_index; [exact W|]. exists idx. split; [|exact Hy]. now apply get_Some_in_range in Hy.
  Qed.

  Theorem C79_min ga a g v :
    wf a -> reduced "min" ga a = Ok (g, v) ->
    g = Some [] /\ exists r, v = number r /\
      (exists idx, in_range (shape a) idx /\ get a idx = Some r) /\
      forall idx x, get a idx = Some x -> (r <= x)%Q.
  Proof.
    intros W H. unfold reduced in H. cbn [cmds_q String.eqb Ascii.eqb Bool.eqb reduce] in H. unfold arr_min in H.
    destruct (flat a) as [|x l] eqn:El; [discriminate|]. cbn [bind] in H. injection H as <- <-. split; [reflexivity|].
    destruct (fold_qmin l x) as [H1 H2]. rewrite <- El in H1, H2. eexists. split; [reflexivity|]. split; [now apply flat_index|].
    intros idx y Hy. apply H2, flat_index; [exact W|]. exists idx. split; [|exact Hy]. now apply get_Some_in_range in Hy.
  Qed.

  Lemma fold_left_nth l x : fold_left Qplus l x == x + total (length l) (fun k => nth k l 0%Q).
  Proof.
    revert x. induction l as [|y l IH] using rev_ind; intros x.
    - cbn. ring.
    - rewrite fold_left_app, app_length. cbn [length fold_left]. rewrite Nat.add_1_r. cbn [total].
      rewrite IH. rewrite app_nth2, Nat.sub_diag by lia. cbn [nth].
      assert (E : forall n, (n <= length l)%nat -> total n (fun k => nth k (l ++ [y]) 0%Q) = total n (fun k => nth k l 0%Q)).
      { induction n as [|n IHn]; intros Hn; [reflexivity|]. cbn [total]. rewrite IHn, app_nth1 by lia. reflexivity. }
      rewrite E by lia. ring.
  Qed.

  (** The mean times the number of elements is the sum of the elements, all
      components of all cells taken together. *)
  Theorem C79_mean ga a g v :
    wf a -> reduced "mean" ga a = Ok (g, v) ->
    g = Some [] /\ exists r, v = number r /\
      r * inject_Z (Z.of_nat (prod (shape a))) == total (prod (shape a)) (fun k => nth k (flat a) 0%Q).
  Proof.
    intros W H. unfold reduced in H. cbn [cmds_q String.eqb Ascii.eqb Bool.eqb reduce] in H. unfold arr_mean in H.
    unfold wf in W. destruct (flat a) as [|x l] eqn:El; [discriminate|]. rewrite <- El in H, W |- *. cbn [bind] in H. injection H as <- <-.
    split; [reflexivity|]. eexists. split; [reflexivity|]. rewrite fold_left_nth, W. field.
    rewrite <- W, El. cbn [length]. intros C. unfold Qeq in C. cbn in C. lia.
  Qed.

  (** They succeed on every array with an element and fail on an empty one. *)
  Theorem C79_reductions_total c ga a :
    In c ["max"; "min"; "mean"]%string ->
    match flat a with [] => reduced c ga a = Err ValueError | _ => exists g v, reduced c ga a = Ok (g, v) end.
  Proof.
    intros [<-|[<-|[<-|[]]]]; unfold reduced; cbn [cmds_q String.eqb Ascii.eqb Bool.eqb reduce];
      unfold arr_max, arr_min, arr_mean; destruct (flat a); cbn [bind]; eauto.
  Qed.
End C79.

Example C79_ex :
  is_array (dotted t_ufun t_pow (Some []) (mk_nda [2; 2]%nat [1; 2; 3; 4]%Q) None (mk_nda [2; 2]%nat [5; 6; 7; 8]%Q)) [2; 1]%nat
    (fun i => if (hd 0 i =? 0)%nat then 17%Q else 53%Q) /\
  reduced t_ufun t_pow "max" None (mk_nda [2; 2]%nat [1; 4; 3; 2]%Q) = Ok (Some [], number 4) /\
  reduced t_ufun t_pow "min" None (mk_nda [2; 2]%nat [1; 4; 3; 2]%Q) = Ok (Some [], number 1).
Proof.
  split; [|split; vm_compute; reflexivity]. eexists _, _. split; [vm_compute; reflexivity|]. split; [reflexivity|]. split; [reflexivity|].
  intros idx H. inversion H as [|i ? l ? Hi H1]; subst. inversion H1 as [|j ? l' ? Hj H2]; subst. inversion H2; subst.
  assert (j = 0%nat) by lia. subst. destruct i as [|[|i]]; [reflexivity|reflexivity|lia].
Qed.

(** [mean] of several components mixes them. *)
Theorem C79_mean_components_refuted :
  exists a, shape a = [2; 2]%nat /\ wf a /\
    reduced t_ufun t_pow "mean" None a = Ok (Some [], number (inject_Z 2 / inject_Z 4)) /\
    ~ (inject_Z 2 / inject_Z 4 == (at_ a [0; 0]%nat + at_ a [1; 0]%nat) / inject_Z 2)%Q.
Proof.
  exists (mk_nda [2; 2]%nat [0; 1; 0; 1]%Q). split; [reflexivity|]. split; [reflexivity|]. split; [vm_compute; reflexivity|].
  vm_compute. discriminate.
Qed.

Print Assumptions C24_blanks.
Print Assumptions C78_token.
Print Assumptions C78_missing_key.
Print Assumptions C78_tag_key_refuted.
Print Assumptions C79_dot.
Print Assumptions C79_max.
Print Assumptions C79_min.
Print Assumptions C79_mean.
Print Assumptions C79_reductions_total.
Print Assumptions C79_mean_components_refuted.
