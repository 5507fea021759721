(** Vocabulary for the rain gauge, the RD-80 and the MRR-PRO. *)
From Coq Require Import Permutation Sorted.
From Verif Require Import Base TimeSpec OutputModel OutputSpec SiteModel SiteSpec ReaderSpec TelegramSpec StationModel StationSpec CliSpec WsModel WsSpec GaugeModel.
Local Open Scope string_scope.
Local Open Scope nat_scope.
Local Open Scope list_scope.
Local Notation length := List.length (only parsing).

(** ** RAIN[e]H3 *)
(** The median, without its fraction. *)
Definition whole_median (l : list nat) (m : nat) : Prop :=
  exists s, Permutation l s /\ StronglySorted le s /\
    ((exists k, length s = 2 * k + 1 /\ nth_error s k = Some m) \/
     (exists k x y, length s = 2 * k + 2 /\ nth_error s k = Some x /\ nth_error s (S k) = Some y /\ 2 * m <= x + y < 2 * m + 2)).
Definition lengths (data : list (list string)) : list nat := map (@List.length string) data.

Section Rain.
Context (to_num : string -> option (masked Q)) (to_stamp16 to_stamp22 : string -> option stamp).
Definition asked (date : option Z) (t : stamp) : Prop := forall d, date = Some d -> fst t = d.
(** A row that counts: columns, a readable time, the expected day. *)
Definition used16 (date : option Z) (row : list string) (t : stamp) : Prop :=
  length row = 16 /\ asked date t /\
  exists a b, nth_error row 0 = Some a /\ nth_error row 1 = Some b /\ to_stamp16 (a ++ " " ++ b) = Some t.
Definition used22 (date : option Z) (row : list string) (t : stamp) : Prop :=
  length row = 22 /\ asked date t /\ exists a, nth_error row 0 = Some a /\ to_stamp22 a = Some t.
Definition number_at (row : list string) (i : nat) (x : masked Q) : Prop := exists w, nth_error row i = Some w /\ to_num w = Some x.
(** The columns of the rows that count; rate and amount in columns [i] and [j]. *)
Definition gauge_rows (used : list string -> stamp -> Prop) (i j : nat) (data ks : list (list string)) (g : gauge) : Prop :=
  ks <> [] /\ kept (fun row => exists t, used row t) data ks /\ Forall2 used ks (g_time g) /\
  Forall2 (fun row x => number_at row i x) ks (g_rate g) /\ Forall2 (fun row x => number_at row j x) ks (g_amount g).
Definition unreadable (used : list string -> stamp -> Prop) (i j : nat) (data : list (list string)) : Prop :=
  exists row t, In row data /\ used row t /\ ((forall x, ~ number_at row i x) \/ (forall x, ~ number_at row j x)).
End Rain.
(** mm/h and m/s, mm and m. *)
Definition mmh_ms (x y : Q) : Prop := (x == y * 3600000)%Q.
Definition mm_m (x y : Q) : Prop := (x == y * 1000)%Q.
Definition in_order (times : list stamp) : Prop := StronglySorted earlier times.
Definition never_decreases (l : list (masked Q)) : Prop :=
  forall i j a b, i < j -> nth_error l i = Some (Some a) -> nth_error l j = Some (Some b) -> (a <= b)%Q.

(** ** RD-80 *)
(** Decimal commas as points. *)
Definition points (w v : string) : Prop :=
  Forall2 (fun c c' => (c = "," /\ c' = ".")%char \/ (c <> ","%char /\ c' = c)) (list_ascii_of_string w) (list_ascii_of_string v).
Definition classes : list string :=
  ["n1"; "n2"; "n3"; "n4"; "n5"; "n6"; "n7"; "n8"; "n9"; "n10"; "n11"; "n12"; "n13"; "n14"; "n15"; "n16"; "n17"; "n18"; "n19"; "n20"].
Section Rd.
Context (to_num : string -> option (masked Q)) (to_int : string -> option Z) (to_stamp : string -> option stamp).
Definition tabbed (line : string) (ws : list string) : Prop := separated (Ascii true false false true false false false false) line ws.
Definition stamp_field (keys ws : list string) (t : stamp) : Prop :=
  exists a b, field keys "YYYY-MM-DD" ws a /\ field keys "hh:mm:ss" ws b /\ to_stamp (a ++ " " ++ b) = Some t.
Definition int_field (keys ws : list string) (k : string) (z : Z) : Prop := exists w, field keys k ws w /\ to_int w = Some z.
Definition float_field (keys ws : list string) (k : string) (x : masked Q) : Prop :=
  exists w v, field keys k ws w /\ points w v /\ to_num v = Some x.
(** A line with as many fields as the header, and its row. *)
Definition full (keys : list string) (line : string) : Prop := exists ws, tabbed line ws /\ length ws = length keys.
Definition rd_row (keys : list string) (line : string) (r : stamp * drops) : Prop :=
  exists ws, tabbed line ws /\ length ws = length keys /\ stamp_field keys ws (fst r) /\
    Forall2 (int_field keys ws) classes (d_n (snd r)) /\ int_field keys ws "Interval [s]" (d_interval (snd r)) /\
    float_field keys ws "RI [mm/h]" (d_rate (snd r)) /\ float_field keys ws "RA [mm]" (d_amount (snd r)) /\
    float_field keys ws "RAT [mm]" (d_total (snd r)).
Definition titles : list string := ["YYYY-MM-DD"; "hh:mm:ss"] ++ classes ++ ["Interval [s]"; "RI [mm/h]"; "RA [mm]"; "RAT [mm]"].
End Rd.
(** Smallest and mean diameter, width (0.001 mm) and speed (0.001 m/s) of the classes. *)
Definition rd_classes : list (Z * Z * Z * Z) :=
  [(313, 359, 92, 1435); (405, 455, 100, 1862); (505, 551, 91, 2267); (596, 656, 119, 2692); (715, 771, 112, 3154);
   (827, 913, 172, 3717); (999, 1116, 233, 4382); (1232, 1331, 197, 4986); (1429, 1506, 153, 5423); (1582, 1665, 166, 5793);
   (1748, 1912, 329, 6315); (2077, 2259, 364, 7009); (2441, 2584, 286, 7546); (2727, 2869, 284, 7903); (3011, 3198, 374, 8258);
   (3385, 3544, 319, 8556); (3704, 3916, 423, 8784); (4127, 4350, 446, 8965); (4573, 4859, 572, 9076); (5145, 5373, 455, 9137)]%Z.
Definition per_mille (z : Z) (q : Q) : Prop := (q * 1000 == inject_Z z)%Q.
(** Counts of a class, over 0.005 m2, the interval, the speed and the width. *)
Definition concentration (dt : Z) (n : Z) (c : Z * Z * Z * Z) (x : Q) : Prop :=
  (x * ((5 # 1000) * inject_Z dt * (inject_Z (snd c) / 1000) * (inject_Z (snd (fst c)) / 1000)) == inject_Z n)%Q.
Definition concentrations (d : drops) (l : list Q) : Prop :=
  length l = length (d_n d) /\
  forall k n c x, nth_error (d_n d) k = Some n -> nth_error rd_classes k = Some c -> nth_error l k = Some x -> concentration (d_interval d) n c x.
(** The sum over the classes of the counts, over the speed, times the sixth power of the diameter. *)
Inductive sixth_moment : list Z -> list (Z * Z * Z * Z) -> Q -> Prop :=
| SixthNil cs : sixth_moment [] cs 0
| SixthCons n ns c cs s s' y : sixth_moment ns cs s -> (y * (inject_Z (snd c) / 1000) == inject_Z n * (inject_Z (snd (fst (fst c))) / 1000) ^ 6)%Q ->
    (s' == s + y)%Q -> sixth_moment (n :: ns) (c :: cs) s'.
Definition moment_rate (d : drops) (z : Q) : Prop :=
  exists s, sixth_moment (d_n d) rd_classes s /\ (z * ((5 # 1000) * inject_Z (d_interval d)) == s)%Q.
(** In dB; not there without drops, or below -10 dB. *)
Definition in_db (log10 : Q -> Q) (z : Q) (y : masked Q) : Prop :=
  ((z <= 0)%Q /\ y = None) \/ ((0 < z)%Q /\ (10 * log10 z < -10)%Q /\ y = None) \/
  ((0 < z)%Q /\ (-10 <= 10 * log10 z)%Q /\ y = Some (10 * log10 z)%Q).
Definition total (n : list Z) : Z := fold_left Z.add n 0%Z.
(** A row of the input and its values in the output. *)
Definition rd_written (log10 : Q -> Q) (rows : list (stamp * drops)) (o : rd80_out) : Prop :=
  Forall2 (fun r h => hours (fst r) h) rows (ro_hours o) /\
  Forall2 (fun r i => i = d_interval (snd r)) rows (ro_interval o) /\
  Forall2 (fun r y => values_as mmh_ms (d_rate (snd r)) y) rows (ro_rate o) /\
  Forall2 (fun r n => n = total (d_n (snd r))) rows (ro_particles o) /\
  Forall2 (fun r l => concentrations (snd r) l) rows (ro_concentration o) /\
  Forall2 (fun r y => exists z, moment_rate (snd r) z /\ in_db log10 z y) rows (ro_reflectivity o).
Definition good_drops (d : drops) : Prop := length (d_n d) = 20 /\ (0 < d_interval d)%Z.

(** ** MRR-PRO *)
Definition in_day (day : Z) (s : Q) : Prop := (inject_Z day * 86400 <= s)%Q /\ (s < (inject_Z day + 1) * 86400)%Q.
(** Hours since the midnight of the day. *)
Definition hour_of (day : Z) (s h : Q) : Prop := (h * 3600 == s - inject_Z day * 86400)%Q.
(** The units of the file and of the output. *)
Definition mrr_si (name : string) (x y : Q) : Prop :=
  (name = "v" -> (y == - x)%Q) /\ (name = "rainfall_rate" -> (y * 3600000 == x)%Q) /\ (name = "lwc" -> (y * 1000 == x)%Q) /\
  (~ In name ["v"; "rainfall_rate"; "lwc"] -> y = x).
Definition mrr_aligned (f : mrr_file) : Prop := forall k c, In (k, c) (m_vars f) -> length c = length (m_seconds f).
(** The profiles [ind], in order, in SI units. *)
Definition mrr_written (f : mrr_file) (ind : list nat) (o : mrr_out) : Prop :=
  Forall2 (fun a b => fst a = fst b /\
    Forall2 (fun i row' => exists row, nth_error (snd a) i = Some row /\ Forall2 (values_as (mrr_si (fst a))) row row') ind (snd b))
    (m_vars f) (mo_vars o).
Definition not_decreasing (l : list Q) : Prop := StronglySorted Qle l.
