(** Model of small instrument routines: cumulative amounts, RPG angles, chirp
    expansion, disdrometer bins, radar band and the loop that rebins a radar.
    Floating point numbers are exact rationals. *)
From Verif Require Import Base ArrayModel GridModel OutputModel.
From Coq Require Import Qround.
Open Scope nat_scope.

(** ** Cumulative amounts *)
(** instruments/cloudnet_instrument.py 122-128, the loop of
    [normalize_cumulative_amount].  [last] is [amount[last_valid]]; if it is
    masked the comparison is masked and counts as false. *)
Fixpoint normalize_loop (offset : Q) (last : masked Q) (l : list (masked Q))
  : list (masked Q) :=
  match l with
  | [] => []
  | None :: l' => None :: normalize_loop offset last l'
  | Some x :: l' =>
      let offset' := match last with
                     | Some y => if qlt (x + offset) y then (offset + y)%Q else offset
                     | None => offset
                     end in
      Some (x + offset')%Q :: normalize_loop offset' (Some (x + offset')%Q) l'
  end.
(** [amount -= amount[0]]: subtracting a masked value masks everything. *)
Definition sub_masked (x y : masked Q) : masked Q :=
  match x, y with Some a, Some b => Some (a - b)%Q | _, _ => None end.
(** instruments/cloudnet_instrument.py 116-130, for a key that is present. *)
Definition normalize_cumulative_amount (amount : list (masked Q)) : result (list (masked Q)) :=
  match amount with
  | [] => Raise IndexError
  | a0 :: rest =>
      Ok (map (fun x => sub_masked x a0) (a0 :: normalize_loop 0 a0 rest))
  end.

(** ** RPG angles *)
Definition qsign (x : Q) : Q := if qlt 0 x then 1%Q else if qlt x 0 then (-1)%Q else 0%Q.
Definition qabs (x : Q) : Q := if qlt x 0 then (- x)%Q else x.
(** Floor division [x // d] of floats. *)
Definition qfloordiv (x d : Q) : Q := inject_Z (Qfloor (x / d)).
(** instruments/rpg_reader.py 147-154, version 1 for one value. *)
Definition decode_v1 (x : Q) : Q * Q :=
  let big := Qle_bool 1000000 x in
  let ele_offset := if big then 100%Q else 0%Q in
  let x := if big then (x - 1000000)%Q else x in
  let azi := (qfloordiv (qabs x) 100 / 10)%Q in
  ((x - qsign x * azi * 1000 + ele_offset)%Q, azi).
(** instruments/rpg_reader.py 155-159, version 2 for one value. *)
Definition decode_v2 (x : Q) : Q * Q :=
  let ele := (qsign x * qfloordiv (qabs x) 100000 / 100)%Q in
  (ele, ((qabs x - qabs ele * 10000000) / 100)%Q).
(** instruments/rpg_reader.py 126-164, [_decode_angles]. *)
Definition decode_angles (x : list Q) (version : Z) : result (list Q * list Q) :=
  if (version =? 1)%Z then Ok (map (fun v => fst (decode_v1 v)) x, map (fun v => snd (decode_v1 v)) x)
  else if (version =? 2)%Z then Ok (map (fun v => fst (decode_v2 v)) x, map (fun v => snd (decode_v2 v)) x)
  else Raise NotImplementedError.

(** ** Chirps *)
(** [np.repeat(v, counts)] for vectors: one count is used for all values,
    otherwise the lengths must agree; counts must not be negative. *)
Definition np_repeat {A} (v : list A) (counts : list Z) : result (list A) :=
  if existsb (fun c => c <? 0)%Z counts then Raise ValueError
  else match counts with
       | [c] => Ok (flat_map (fun x => List.repeat x (Z.to_nat c)) v)
       | _ => if List.length v =? List.length counts
              then Ok (List.concat (map2 (fun x c => List.repeat x (Z.to_nat c)) v counts))
              else Raise ValueError
       end.
(** [a[t, :] = row] where the row of [a] has [n] entries. *)
Definition assign_row {A} (n : nat) (row : list A) : result (list A) :=
  if List.length row =? n then Ok row
  else match row with [x] => Ok (List.repeat x n) | _ => Raise ValueError end.
(** [np.r_[starts[1:], n] - starts], which is [np.diff(starts, append=n)]. *)
Fixpoint segment_lengths (starts : list Z) (n : Z) : list Z :=
  match starts with
  | [] => []
  | [s] => [(n - s)%Z]
  | s :: (s' :: _) as r => (s' - s)%Z :: segment_lengths r n
  end.
(** [x.compressed()]. *)
Definition compress {A} (l : list (masked A)) : list A := present l.
(** instruments/rpg.py 146-151, one profile of [_expand_nyquist]. *)
Definition expand_profile {A} (n_range : nat) (nyq : list (masked A)) (starts : list (masked Z))
  : result (list A) :=
  bind (np_repeat (compress nyq) (segment_lengths (compress starts) (Z.of_nat n_range)))
    (assign_row n_range).
(** instruments/rpg.py 139-152, [_expand_nyquist]: one row of [starts] per
    profile; [nyquist_velocity[t]] fails if it has fewer rows. *)
Fixpoint expand_nyquist {A} (n_range : nat) (nyq : list (list (masked A)))
  (starts : list (list (masked Z))) {struct starts} : result (list (list A)) :=
  match starts with
  | [] => Ok []
  | s :: starts' =>
      match nyq with
      | [] => Raise IndexError
      | v :: nyq' =>
          bind (expand_profile n_range v s) (fun row =>
          bind (expand_nyquist n_range nyq' starts') (fun rows => Ok (row :: rows)))
      end
  end.

(** Array without masked values of zero, one or two dimensions; a matrix is given
    by its rows and its number of columns. *)
Inductive nd (A : Type) : Type :=
| Nd0 : A -> nd A
| Nd1 : list A -> nd A
| Nd2 : list (list A) -> nat -> nd A.
Arguments Nd0 {A}. Arguments Nd1 {A}. Arguments Nd2 {A}.
(** [x.shape == (r, c)]. *)
Definition has_shape {A} (x : nd A) (r c : nat) : bool :=
  match x with Nd2 rows k => (List.length rows =? r) && (k =? c) | _ => false end.
(** utils.py 733-750, [isscalar]. *)
Definition isscalar {A} (x : nd A) : bool :=
  match x with
  | Nd0 _ => true
  | Nd1 l => List.length l =? 1
  | Nd2 rows _ => List.length rows =? 1
  end.
(** One axis of [np.broadcast_to]: equal length, or one entry repeated. *)
Definition stretch {A} (n : nat) (l : list A) : result (list A) :=
  if List.length l =? n then Ok l
  else match l with [x] => Ok (List.repeat x n) | _ => Raise ValueError end.
Fixpoint traverse {A B} (f : A -> result B) (l : list A) : result (list B) :=
  match l with
  | [] => Ok []
  | x :: r => bind (f x) (fun y => bind (traverse f r) (fun ys => Ok (y :: ys)))
  end.
(** [np.broadcast_to(x, (r, c))]. *)
Definition broadcast_to {A} (x : nd A) (r c : nat) : result (list (list A)) :=
  match x with
  | Nd0 a => Ok (List.repeat (List.repeat a c) r)
  | Nd1 l => bind (stretch c l) (fun row => Ok (List.repeat row r))
  | Nd2 rows _ => bind (traverse (stretch c) rows) (stretch r)
  end.
(** [l.reshape((r, c))]. *)
Fixpoint chunks {A} (r c : nat) (l : list A) : list (list A) :=
  match r with O => [] | S r' => firstn c l :: chunks r' c (skipn c l) end.
Definition reshape {A} (r c : nat) (l : list A) : result (list (list A)) :=
  if List.length l =? r * c then Ok (chunks r c l) else Raise ValueError.
(** categorize/radar.py 403-430, [_get_expanded_folding_velocity] after [fvel] is
    determined.  [starts] is the chirp_start_indices variable, [None] if the file
    has none.  Masked start indices are not modelled. *)
Definition normalize_starts (row : list Z) : list Z := map (fun s => (s - hd 0%Z row)%Z) row.
Definition expand_folding {A} (fvel : nd A) (starts : option (nd Z)) (n_time n_height : nat)
  : result (list (list A)) :=
  if has_shape fvel n_time n_height then broadcast_to fvel n_time n_height
  else if isscalar fvel then broadcast_to fvel n_time n_height
  else match starts with
       | None => Raise KeyError
       | Some (Nd0 _) => Raise IndexError
       | Some s =>
           let n_seg := match s with Nd0 _ => 0 | Nd1 l => List.length l | Nd2 _ k => k end in
           bind (broadcast_to s n_time n_seg) (fun starts =>
           bind (broadcast_to fvel n_time n_seg) (fun fvel =>
           if n_seg =? 0 then Raise IndexError
           else if forallb (fun row => (hd 0 row =? 0)%Z || (hd 0 row =? 1)%Z) starts then
             let sizes := map (fun row => segment_lengths (normalize_starts row) (Z.of_nat n_height)) starts in
             bind (np_repeat (List.concat fvel) (List.concat sizes)) (reshape n_time n_height)
           else Raise ValueError))
       end.

(** ** Disdrometer bins *)
(** [np.linspace(a, b, n)]. *)
Definition linspace (a b : Q) (n : nat) : list Q :=
  match n with
  | 0 => []
  | 1 => [a]
  | _ => map (fun k => (a + inject_Z (Z.of_nat k) * ((b - a) / inject_Z (Z.of_nat (n - 1))))%Q)
           (seq 0 n)
  end.
Record bins := { b_mid : list Q; b_bounds : list (Q * Q); b_spread : list Q }.
(** instruments/disdrometer/common.py 63-70, the loop: lower and upper limits and
    centres.  [upper[-1]] fails for a class without bins, [zip] for lists of
    unequal length. *)
Fixpoint bin_loop (spreads : list Q) (n_values : list nat) (start : Q)
  : result (list (Q * Q * Q)) :=
  match spreads, n_values with
  | [], [] => Ok []
  | sp :: spreads', n :: n_values' =>
      let lower := linspace start (start + (inject_Z (Z.of_nat n) - 1) * sp) n in
      let upper := map (fun x => (x + sp)%Q) lower in
      match rev upper with
      | [] => Raise IndexError
      | u :: _ =>
          bind (bin_loop spreads' n_values' u) (fun rest =>
          Ok (map2 (fun l u => (l, u, ((l + u) / 2)%Q)) lower upper ++ rest))
      end
  | _, _ => Raise ValueError
  end.
(** instruments/disdrometer/common.py 54-72, [_create_vectors]. *)
Definition create_vectors (n_values : list nat) (spreads : list Q) (start : Q) : result bins :=
  bind (bin_loop spreads n_values start) (fun l =>
  Ok {| b_mid := map snd l; b_bounds := map fst l;
        b_spread := map (fun t => (snd (fst t) - fst (fst t))%Q) l |}).

(** ** Radar band *)
Inductive band := BandX | BandKa | BandW.
(** utils.py 778-795, [get_wl_band]. *)
Definition get_wl_band (f : Q) : result band :=
  if qlt 8 f && qlt f 12 then Ok BandX
  else if qlt 27 f && qlt f 40 then Ok BandKa
  else if qlt 75 f && qlt f 110 then Ok BandW
  else Raise ValueError.

(** ** Rebinning of a radar *)
Section Rebin.
Variable A : Type.                          (* arrays *)
Variable rebin_db : A -> A.                 (* db2lin, rebin_data, lin2db *)
Variable rebin_mean : A -> A.               (* rebin_data *)
Variable rebin_std : A -> A.                (* rebin_2d with "std" *)
Variable rebin_velocity : A -> A -> result A. (* folding velocity, velocity *)
Variable max_folding : A -> A.              (* rebin_2d with "max" *)
Variable prf_to_folding : A -> result A.    (* _prf_to_folding_velocity *)
Variable expand : A -> result A.            (* the expansion to gates, see above *)
(** The variables of the radar file. *)
Variable file : dict A.

(** categorize/radar.py 342-348, [_init_data]: the radar's data. *)
Definition getvar (key : string) : result A :=
  match lookup key file with Some x => Ok x | None => Raise KeyError end.
Definition init_data : result (dict A) :=
  bind (getvar "Zh") (fun z => bind (getvar "v") (fun v =>
  Ok (fold_left (fun data key => match lookup key file with
                                 | Some x => set_key key x data
                                 | None => data
                                 end)
        ["v"; "ldr"; "width"; "sldr"; "rainfall_rate"; "nyquist_velocity"]%string
        (set_key "v_sigma" v (set_key "Z" z []))))).
(** categorize/radar.py 393-430, [_get_expanded_folding_velocity]. *)
Definition folding : result A :=
  match lookup "nyquist_velocity" file with
  | Some f => expand f
  | None => match lookup "prf" file with
            | Some p => bind (prf_to_folding p) expand
            | None => Raise RuntimeError
            end
  end.
(** categorize/radar.py 350-391, [_rebin_velocity]: stores nyquist_velocity in the
    data and returns the rebinned velocity. *)
Definition rebin_velocity_step (v : A) (data : dict A) : result (A * dict A) :=
  bind folding (fun f =>
  let data := set_key "nyquist_velocity" (max_folding f) data in
  bind (rebin_velocity f v) (fun v' => Ok (v', data))).
(** The body of the loop in categorize/radar.py 57-80 for one key. *)
Definition rebin_step (key : string) (x : A) (data : dict A) : result (dict A) :=
  if (String.eqb key "ldr" || String.eqb key "sldr" || String.eqb key "Z")%bool
  then Ok (set_key key (rebin_db x) data)
  else if String.eqb key "v" then
    bind (rebin_velocity_step x data) (fun p => Ok (set_key key (fst p) (snd p)))
  else if String.eqb key "v_sigma" then Ok (set_key key (rebin_std x) data)
  else if (String.eqb key "width" || String.eqb key "rainfall_rate")%bool
  then Ok (set_key key (rebin_mean x) data)
  else Ok data.
(** [for key, array in self.data.items()]: before every step, the one past the end
    included, the iterator compares the number of entries with the number at the
    start and raises RuntimeError if they differ.  [k] is the position; the order
    of existing keys never changes. *)
Fixpoint rebin_loop (fuel k size : nat) (data : dict A) : result (dict A) :=
  if negb (List.length data =? size) then Raise RuntimeError
  else match nth_error data k with
       | None => Ok data
       | Some (key, x) =>
           match fuel with
           | O => Ok data
           | S fuel' => bind (rebin_step key x data) (rebin_loop fuel' (S k) size)
           end
       end.
Definition rebin_to_grid (data : dict A) : result (dict A) :=
  rebin_loop (S (List.length data)) 0 (List.length data) data.
(** Opening a radar file and rebinning it. *)
Definition open_and_rebin : result (dict A) := bind init_data rebin_to_grid.
End Rebin.
