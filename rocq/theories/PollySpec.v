(** What the properties of PollyXT files say, independently of the model. *)
From Verif Require Import Base OutputModel TimeSpec HatproSpec NcRadarModel NcRadarSpec LidarSpec PollyModel.
From Coq Require Import Qabs String Ascii Sorting.Sorted.
Open Scope string_scope.
Open Scope nat_scope.
Open Scope list_scope.
Local Notation length := List.length (only parsing).

(** ** The files *)
(** The name has a digit, the key, and later the extension. *)
Definition named_like (key s : string) : Prop :=
  exists a c b, s = (a ++ String c (key ++ b ++ ".nc"))%string /\ (48 <= nat_of_ascii c <= 57)%nat.
(** [out] holds the names with the key, as often as in [files], in alphabetical order. *)
Definition picked_names (key : string) (files out : list string) : Prop :=
  StronglySorted (fun a b => ~ before b a) out /\
  forall s, (named_like key s -> count_occ string_dec out s = count_occ string_dec files s) /\ (~ named_like key s -> ~ In s out).
(** The integer nearest to a number; the even one of two. *)
Definition nearest_integer (x : Q) (u : Z) : Prop :=
  (2 * Qabs (x - inject_Z u) < 1)%Q \/ ((2 * Qabs (x - inject_Z u) == 1)%Q /\ Z.even u = true).
(** The sum of the known heights, rounded, is [s]. *)
Definition height_total (height : list (masked Q)) (s : Q) : Prop :=
  exists v w, known height v /\ v <> [] /\ Forall2 nearest_integer v w /\ (s == inject_Z (fold_right Z.add 0%Z w))%Q.
(** [k] of the files have the total [s]. *)
Definition share (s : Q) (heights : list (list (masked Q))) (k : nat) : Prop :=
  exists idx, NoDup idx /\ (forall i, In i idx <-> exists h, nth_error heights i = Some h /\ height_total h s) /\ length idx = k.
(** No total is more frequent than [s], and those before it are less frequent. *)
Definition prevailing (s : Q) (heights : list (list (masked Q))) : Prop :=
  exists i h k, nth_error heights i = Some h /\ height_total h s /\ share s heights k /\
    (forall s' k', share s' heights k' -> k' <= k) /\
    (forall j h' s' k', j < i -> nth_error heights j = Some h' -> height_total h' s' -> share s' heights k' -> k' < k).
Definition all_heights (pairs : list (bsc_file * depol_file)) : list (list (masked Q)) :=
  map (fun p => b_height (fst p)) pairs ++ map (fun p => d_height (snd p)) pairs.
(** [kept] holds the elements of [l] with the property, in their order. *)
Definition those {A} (P : A -> Prop) (l kept : list A) : Prop :=
  exists idx, StronglySorted lt idx /\ (forall i, In i idx <-> exists x, nth_error l i = Some x /\ P x) /\
    Forall2 (fun i x => nth_error l i = Some x) idx kept.

(** ** The channel *)
(** The sum of the visible values of the channel is zero, or not. *)
Definition dead (channel : string) (f : bsc_file) : Prop :=
  exists beta c, lookup channel (b_beta f) = Some (beta, c) /\ (fold_right Qplus 0 (visible (List.concat beta)) == 0)%Q.
Definition alive (channel : string) (f : bsc_file) : Prop :=
  exists beta c, lookup channel (b_beta f) = Some (beta, c) /\ ~ (fold_right Qplus 0 (visible (List.concat beta)) == 0)%Q.
(** The channel is alive in some file, and dead in those before it. *)
Definition works_in (channel : string) (files : list bsc_file) : Prop :=
  exists pre f post, files = pre ++ f :: post /\ Forall (dead channel) pre /\ alive channel f.
Definition polly_channels : list string := ["1064"; "532"; "355"].

(** ** The data *)
(** The times of the two files agree. *)
Definition same_times (a b : list Q) : Prop := Forall2 (fun x y => (Qabs (y - x) < 15 # 1000)%Q) a b.
(** The data of a pair: times, backscatter, depolarisation, signal-to-noise ratio and
    calibration constant. *)
Record piece := { e_time : list Q; e_beta : image cell; e_depol : image cell; e_snr : image cell; e_factor : Q }.
Definition piece_of (channel : string) (p : bsc_file * depol_file) (e : piece) : Prop :=
  e_time e = b_time (fst p) /\ lookup channel (b_beta (fst p)) = Some (e_beta e, e_factor e) /\
  d_ratio (snd p) = Some (e_depol e) /\ lookup channel (b_snr (fst p)) = Some (e_snr e).
Definition usable (channel : string) (p : bsc_file * depol_file) : Prop :=
  same_times (b_time (fst p)) (d_time (snd p)) /\ lookup channel (b_snr (fst p)) <> None.
(** In every file the images have as many profiles as there are times. *)
Definition complete (channel : string) (p : bsc_file * depol_file) : Prop :=
  forall e, piece_of channel p e -> length (e_beta e) = length (e_time e) /\ length (e_depol e) = length (e_time e) /\ length (e_snr e) = length (e_time e).

(** ** Masks *)
Definition visible_pixel (row : list cell) : Prop := exists x, In (x, false) row.
(** [out] is what [array] becomes if the rows with the property are kept. *)
Definition keeps_rows (P : nat -> Prop) (n : nat) (array out : parray) : Prop :=
  match array, out with
  | P1 l, P1 l' => if length l =? n then exists idx, StronglySorted lt idx /\ (forall i, In i idx <-> i < n /\ P i) /\ rows_of idx l l' else l' = l
  | P2 m, P2 m' => if length m =? n then exists idx, StronglySorted lt idx /\ (forall i, In i idx <-> i < n /\ P i) /\ rows_of idx m m' else m' = m
  | _, _ => False
  end.
