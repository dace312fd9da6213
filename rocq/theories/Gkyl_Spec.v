(** * What a .gkyl file is supposed to contain.

    Encoders written from the format description in the comment at the top of
    data/gkyl_reader.py (lines 9-78), independent of the reader and writer. *)
From Coq Require Import String Ascii List ZArith Bool Lia QArith.
From Verif Require Import Prelude NdArray.
Import ListNotations.
Open Scope list_scope.
Open Scope Z_scope.

(** uint64_t, little endian. *)
Definition u64 (z : Z) : list Z :=
  List.map (fun k => (z / 256 ^ Z.of_nat k) mod 256) (seq 0 8).

Definition fits (z : Z) : Prop := 0 <= z < 2 ^ 63.

Definition of_ascii (s : string) : list Z :=
  List.map (fun c => Z.of_nat (nat_of_ascii c)) (list_ascii_of_string s).

Definition u64n (n : nat) : list Z := u64 (Z.of_nat n).

(** Common header: "gkyl0", version, file type, metadata. *)
Definition header_bytes (ftype : Z) (meta : list Z) : list Z :=
  of_ascii "gkyl0" ++ u64 1 ++ u64 ftype ++ u64n (length meta) ++ meta.

(** A field: numbers are given by their bytes. *)
Record field := mk_field {
  fd_cells : list nat;
  fd_nc : nat;
  fd_lower : list (list Z);
  fd_upper : list (list Z);
  fd_data : list (list Z)       (* row-major, component fastest *)
}.

(** Real type 1 is float (4 bytes), 2 is double (8 bytes). *)
Definition width_of (rt : Z) : nat := if rt =? 1 then 4%nat else 8%nat.

(** The part shared by file types 1 and 3, real_type .. size. *)
Definition domain_bytes (rt : Z) (fd : field) : list Z :=
  u64 rt ++ u64n (length (fd_cells fd)) ++ flat_map u64n (fd_cells fd)
  ++ concat (fd_lower fd) ++ concat (fd_upper fd)
  ++ u64n (fd_nc fd * width_of rt) ++ u64n (prod (fd_cells fd)).

(** File type 1. *)
Definition field_bytes (rt : Z) (meta : list Z) (fd : field) : list Z :=
  header_bytes 1 meta ++ domain_bytes rt fd ++ concat (fd_data fd).

Definition all_width (w : nat) (l : list (list Z)) : Prop := Forall (fun b => length b = w) l.

(** Sizes that fit the format, bounds of width [bw], data of the width of the
    real type. *)
Definition good_domain (rt : Z) (bw : nat) (meta : list Z) (fd : field) : Prop :=
  (rt = 1 \/ rt = 2) /\
  length (fd_lower fd) = length (fd_cells fd) /\ length (fd_upper fd) = length (fd_cells fd) /\
  all_width bw (fd_lower fd) /\ all_width bw (fd_upper fd) /\
  fits (Z.of_nat (length meta)) /\ fits (Z.of_nat (length (fd_cells fd))) /\
  Forall (fun n => fits (Z.of_nat n)) (fd_cells fd) /\
  fits (Z.of_nat (fd_nc fd * width_of rt)) /\ fits (Z.of_nat (prod (fd_cells fd))).

Definition good_field (rt : Z) (bw : nat) (meta : list Z) (fd : field) : Prop :=
  good_domain rt bw meta fd /\
  all_width (width_of rt) (fd_data fd) /\
  length (fd_data fd) = (prod (fd_cells fd) * fd_nc fd)%nat.

(** ** Multi-range files *)

Record range := mk_range {
  rg_lo : list nat;              (* 1-based, inclusive *)
  rg_up : list nat;              (* 1-based, inclusive *)
  rg_data : list (list Z)
}.

(** Cells of a range per dimension. *)
Definition rg_ext (r : range) : list nat := map2 (fun l u => (u + 1 - l)%nat) (rg_lo r) (rg_up r).

Definition range_bytes (r : range) : list Z :=
  flat_map u64n (rg_lo r) ++ flat_map u64n (rg_up r) ++ u64n (prod (rg_ext r))
  ++ concat (rg_data r).

(** File type 3; the data of the field itself are in the ranges. *)
Definition multi_bytes (rt : Z) (meta : list Z) (fd : field) (rs : list range) : list Z :=
  header_bytes 3 meta ++ domain_bytes rt fd ++ u64n (length rs) ++ flat_map range_bytes rs.

(** A range inside the domain with as many data as it has cells. *)
Definition good_range (w : nat) (cells : list nat) (nc : nat) (r : range) : Prop :=
  length (rg_lo r) = length cells /\ length (rg_up r) = length cells /\
  (forall d l u n, nth_error (rg_lo r) d = Some l -> nth_error (rg_up r) d = Some u ->
                   nth_error cells d = Some n -> (1 <= l <= u)%nat /\ (u <= n)%nat) /\
  all_width w (rg_data r) /\ length (rg_data r) = (prod (rg_ext r) * nc)%nat.

(** The (0-based) cell [idx] lies in the range. *)
Definition covers (r : range) (idx : list nat) : Prop :=
  length idx = length (rg_lo r) /\
  forall d l u i, nth_error (rg_lo r) d = Some l -> nth_error (rg_up r) d = Some u ->
                  nth_error idx d = Some i -> (l <= i + 1 <= u)%nat.

(** Bytes a range stores for component [c] of cell [idx]. *)
Definition stored (r : range) (nc : nat) (idx : list nat) (c : nat) : option (list Z) :=
  get (mk_nda (rg_ext r ++ [nc]) (rg_data r))
      (map2 (fun i l => (i + 1 - l)%nat) idx (rg_lo r) ++ [c]).

(** The value the assembled field must have: that of the last range covering
    the cell, [None] if there is none. *)
Definition last_covering (rs : list range) (idx : list nat) (o : option range) : Prop :=
  match o with
  | None => forall r, In r rs -> ~ covers r idx
  | Some r => exists before after, rs = before ++ r :: after /\ covers r idx /\
              forall r', In r' after -> ~ covers r' idx
  end.

(** ** Time traces *)

Record chunk := mk_chunk {
  ch_meta : list Z;
  ch_time : list (list Z);
  ch_data : list (list Z)       (* row by row *)
}.

(** File type 2: one header and block of rows per chunk; times are float64. *)
Definition chunk_bytes (rt : Z) (nc : nat) (c : chunk) : list Z :=
  header_bytes 2 (ch_meta c) ++ u64 rt ++ u64n (nc * width_of rt) ++ u64n (length (ch_time c))
  ++ concat (ch_time c) ++ concat (ch_data c).

Definition good_chunk (rt : Z) (nc : nat) (c : chunk) : Prop :=
  (0 < length (ch_time c))%nat /\ all_width 8 (ch_time c) /\ all_width (width_of rt) (ch_data c) /\
  length (ch_data c) = (length (ch_time c) * nc)%nat /\
  fits (Z.of_nat (length (ch_meta c))) /\ fits (Z.of_nat (nc * width_of rt)) /\
  fits (Z.of_nat (length (ch_time c))).

(** ** Partial-load cuts *)

Definition show_opt (o : option Z) : string := match o with None => ""%string | Some z => show_Z z end.

(** [s] cuts [a .. b-1] out of [n] cells: nothing given; one index; or a slice
    with a non-negative start and a non-zero stop inside the range, with the
    meaning Python gives it. *)
Inductive cut_range (n : nat) : string -> nat -> nat -> Prop :=
| cr_all : (0 < n)%nat -> cut_range n "" 0 n
| cr_index k : (k < n)%nat -> cut_range n (show_Z (Z.of_nat k)) k (S k)
| cr_slice start stop (a b : nat) :
    match start with None => True | Some i => 0 <= i end ->
    match stop with None => True | Some j => j <> 0 /\ j <= Z.of_nat n end ->
    slice_indices (Z.of_nat n) start stop None = Ok (Z.of_nat a, Z.of_nat b, 1) ->
    (a < b)%nat ->
    cut_range n (show_opt start ++ ":" ++ show_opt stop)%string a b.

(** The seven cut strings of the interface (six axes, then the components; ""
    for an axis that is not cut) select [abs] per dimension and the components
    [ca .. cb-1]. *)
Definition cuts_select (ps : list string) (cells : list nat) (nc : nat)
           (abs : list (nat * nat)) (ca cb : nat) : Prop :=
  length ps = 7%nat /\ (length cells <= 6)%nat /\ length abs = length cells /\
  (forall d s n a b, nth_error ps d = Some s -> nth_error cells d = Some n ->
                     nth_error abs d = Some (a, b) -> cut_range n s a b) /\
  (forall s, nth_error ps 6 = Some s -> cut_range nc s ca cb).

(** Positions kept along each axis by these cuts. *)
Definition kept (abs : list (nat * nat)) (ca cb : nat) : list (list nat) :=
  List.map (fun ab => seq (fst ab) (snd ab - fst ab)) (abs ++ [(ca, cb)]).

Definition cut_cells (abs : list (nat * nat)) : list nat := List.map (fun ab => (snd ab - fst ab)%nat) abs.

(** The metadata block can be decoded (or is empty). *)
Definition meta_readable {M} (unpack : list Z -> option (option (list (string * M)))) (meta : list Z) : Prop :=
  meta = [] \/ exists d, unpack meta = Some d.

(** Names under which metadata are stored. *)
Definition norm_key (k : string) : string :=
  if String.eqb k "polyOrder" then "poly_order"%string
  else if String.eqb k "basisType" then "basis_type"%string else k.

(** Assignments one metadata entry stands for; a basis implies modal data. *)
Definition meta_assigns {M} (mtrue : M) (kv : string * M) : list (string * M) :=
  (norm_key (fst kv), snd kv)
  :: (if String.eqb (norm_key (fst kv)) "basis_type" then [("is_modal"%string, mtrue)] else []).

(** Last value assigned to [k], if any. *)
Definition last_assign {M} (k : string) (l : list (string * M)) : option M :=
  match List.find (fun kv => String.eqb k (fst kv)) (rev l) with Some kv => Some (snd kv) | None => None end.

(** What a context lookup must give after metadata [d] were read into [ctx]. *)
Definition meta_lookup {M} (mtrue : M) (ctx : list (string * M)) (d : option (option (list (string * M))))
           (k : string) : option M :=
  match d with
  | Some (Some l) =>
      match last_assign k (flat_map (meta_assigns mtrue) l) with
      | Some v => Some v
      | None => aget k ctx
      end
  | _ => aget k ctx
  end.

(** Numbers are rationals; [dec] decodes them. *)
Definition same_node (gp gf : list Q) (a i : nat) : Prop :=
  exists x y, nth_error gp i = Some x /\ nth_error gf (a + i) = Some y /\ (x == y)%Q.
