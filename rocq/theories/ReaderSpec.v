(** Vocabulary for the text readers. *)
From Verif Require Import Base OutputModel OutputSpec SiteModel SiteSpec ReaderModel.
Local Open Scope string_scope.
Local Open Scope nat_scope.
Local Notation length := List.length (only parsing).

(** [bs] are the things that [R] relates to the elements of [l], in order; elements
    related to nothing contribute nothing. *)
Inductive collects {A B} (R : A -> B -> Prop) : list A -> list B -> Prop :=
| collects_nil : collects R [] []
| collects_take : forall a b l bs, R a b -> collects R l bs -> collects R (a :: l) (b :: bs)
| collects_skip : forall a l bs, (forall b, ~ R a b) -> collects R l bs -> collects R (a :: l) bs.
(** The column stored under [k] is [c]; a column that does not exist is empty. *)
Definition has_column {K A} (d : list (K * list A)) (k : K) (c : list A) : Prop :=
  (In (k, c) d /\ NoDup (map fst d)) \/ (c = [] /\ ~ In k (map fst d)).

(** [t] is [u] without the characters [c] at its end. *)
Definition only_char (c : ascii) (s : string) : Prop := forall a x b, s = a ++ String x b -> x = c.
Definition trimmed (c : ascii) (u t : string) : Prop :=
  exists r, u = t ++ r /\ only_char c r /\ (t = "" \/ exists p x, t = p ++ String x "" /\ x <> c).

(** ** Thies LPM *)
(** The fields of a telegram: what lies between the semicolons, without white space
    around the telegram and without semicolons at the end. *)
Definition telegram_fields (line : string) (ws : list string) : Prop :=
  exists u t, stripped line u /\ trimmed ";" u t /\ separated ";" t ws.
(** Number columns of the telegram.  The columns are numbered from 2. *)
Definition whole_column (no : nat) : Prop :=
  In no [2; 3; 7; 8; 11; 12; 18; 20; 524] \/ 22 <= no <= 45 \/ 47 <= no <= 51 \/ 81 <= no <= 520.
Definition decimal_column (no : nat) : Prop :=
  In no [10; 19; 21; 46] \/ 14 <= no <= 17 \/ 521 <= no <= 523.
Section Lpm.
Context {D T : Type} (to_int : string -> option Z) (to_float : string -> option Q)
  (to_date : string -> option D) (to_time : string -> option T).
Inductive lpm_meaning : nat -> string -> @lpm_cell D T -> Prop :=
| lm_date : forall w d, to_date w = Some d -> lpm_meaning 5 w (LDate d)
| lm_time : forall w t, to_time w = Some t -> lpm_meaning 6 w (LTime t)
| lm_int : forall no w z, whole_column no -> to_int w = Some z -> lpm_meaning no w (LInt z)
| lm_float : forall no w q, decimal_column no -> to_float w = Some q -> lpm_meaning no w (LFloat q)
| lm_text : forall no w, no <> 5 -> no <> 6 -> ~ whole_column no -> ~ decimal_column no ->
    lpm_meaning no w (LText w).
(** A telegram has 520 or 524 fields; the last one is not a value. *)
Definition telegram (line : string) (ws : list string) : Prop :=
  telegram_fields line ws /\ (length ws = 520 \/ length ws = 524).
Definition lpm_value_at (line : string) (no : nat) (v : lpm_cell) : Prop :=
  exists ws w, telegram line ws /\ 2 <= no <= length ws /\
    nth_error ws (no - 2) = Some w /\ lpm_meaning no w v.
(** All values up to column [no] can be read. *)
Definition readable_to (line : string) (no : nat) : Prop :=
  forall k, 2 <= k <= no -> exists v, lpm_value_at line k v.
(** The whole telegram can be read. *)
Definition readable (line : string) : Prop :=
  exists ws, telegram line ws /\ readable_to line (length ws).
End Lpm.

(** ** Parsivel text files *)
Section Parsivel.
Context {D T : Type} (to_int : string -> option Z) (to_float : string -> option Q).
Definition line_fields (sep : ascii) (line : string) (ws : list string) : Prop :=
  exists t, trimmed sep line t /\ separated sep t ws.
(** Number of fields of an item. *)
Definition spans (it : @item D T) (n : nat) : Prop :=
  ((it = ItNum 90 \/ it = ItNum 91) /\ n = 32) \/
  (it = ItNum 93 /\ n = 1024) \/
  (it <> ItNum 90 /\ it <> ItNum 91 /\ it <> ItNum 93 /\ n = 1).
(** The fields, cut into one piece for each item. *)
Definition cut (telegram : list (@item D T)) (ws : list string) (fss : list (list string)) : Prop :=
  Forall2 (fun it fs => spans it (length fs)) telegram fss /\ List.concat fss = ws.
Definition pv_decimal (n : nat) : Prop := In n [1; 2; 7; 16; 17; 24; 30; 31; 33; 34; 35].
Definition pv_whole (n : nat) : Prop := In n [3; 4; 18; 25; 60] \/ 8 <= n <= 13 \/ 26 <= n <= 28.
(** The value of number [n] in its fields. *)
Inductive num_reading (dec : ascii) (n : nat) : list string -> pcell -> Prop :=
| nr_float : forall w q, pv_decimal n -> to_float (replace_char dec "." w) = Some q ->
    num_reading dec n [w] (PFloat q)
| nr_int : forall w z, pv_whole n -> to_int w = Some z -> num_reading dec n [w] (PInt z)
| nr_vec : forall fs l, n = 90 \/ n = 91 -> Forall2 (fun w q => to_float w = Some q) fs l ->
    num_reading dec n fs (PVec l)
| nr_spec : forall fs l m, n = 93 -> Forall2 (fun w q => to_float w = Some q) fs l ->
    length m = 32 -> Forall (fun r => length r = 32) m -> List.concat m = l ->
    num_reading dec n fs (PSpec m)
| nr_text : forall w, ~ pv_decimal n -> ~ pv_whole n -> n <> 90 -> n <> 91 -> n <> 93 ->
    num_reading dec n [w] (PText w).
Inductive item_readable (dec : ascii) : @item D T -> list string -> Prop :=
| ir_num : forall n fs c, num_reading dec n fs c -> item_readable dec (ItNum n) fs
| ir_date : forall p w d, p w = Some d -> item_readable dec (ItDate p) [w]
| ir_time : forall p w d, p w = Some d -> item_readable dec (ItTime p) [w]
| ir_stamp : forall p w d, p w = Some d -> item_readable dec (ItStamp p) [w]
| ir_skip : forall w, item_readable dec ItSkip [w].
(** A line that can be read, cut into its pieces. *)
Definition good_line (sep dec : ascii) (telegram : list (@item D T)) (line : string)
  (fss : list (list string)) : Prop :=
  exists ws, line_fields sep line ws /\ cut telegram ws fss /\
    Forall2 (item_readable dec) telegram fss.
(** The last item of the telegram for which [p] holds has the fields [fs]. *)
Definition last_item (p : @item D T -> Prop) (telegram : list item) (fss : list (list string))
  (it : item) (fs : list string) : Prop :=
  exists i, nth_error telegram i = Some it /\ p it /\ nth_error fss i = Some fs /\
    forall j it', i < j -> nth_error telegram j = Some it' -> ~ p it'.
Definition value_in_line (sep dec : ascii) (telegram : list (@item D T)) (n : nat) (line : string) (c : pcell) : Prop :=
  exists fss fs, good_line sep dec telegram line fss /\
    last_item (fun it => it = ItNum n) telegram fss (ItNum n) fs /\ num_reading dec n fs c.
Definition is_date (it : @item D T) : Prop := exists p, it = ItDate p.
Definition is_time (it : @item D T) : Prop := exists p, it = ItTime p.
Definition is_stamp (it : @item D T) : Prop := exists p, it = ItStamp p.
Definition stamp_in_line (sep dec : ascii) (telegram : list (@item D T)) (line : string) (s : D * T) : Prop :=
  exists fss, good_line sep dec telegram line fss /\
    ((exists p w, last_item is_stamp telegram fss (ItStamp p) [w] /\ p w = Some s) \/
     ((forall it, In it telegram -> ~ is_stamp it) /\
      exists p w q x, last_item is_date telegram fss (ItDate p) [w] /\ p w = Some (fst s) /\
                      last_item is_time telegram fss (ItTime q) [x] /\ q x = Some (snd s))).
(** The telegram tells the time: date and time in one item, or one item each. *)
Definition timed (telegram : list (@item D T)) : Prop :=
  (exists it, In it telegram /\ is_stamp it) \/
  ((exists it, In it telegram /\ is_date it) /\ (exists it, In it telegram /\ is_time it)).

(** ** Parsivel records *)
(** One line [key:value] of a record. *)
Inductive entry : string -> Z -> option rcell -> Prop :=
| en_int : forall line k v n z, line = k ++ String ":" v -> without ":" k -> to_int k = Some (Z.of_nat n) ->
    pv_whole n -> to_int v = Some z -> entry line (Z.of_nat n) (Some (RInt z))
| en_float : forall line k v n q, line = k ++ String ":" v -> without ":" k -> to_int k = Some (Z.of_nat n) ->
    pv_decimal n -> to_float v = Some q -> entry line (Z.of_nat n) (Some (RFloat q))
| en_vec : forall line k v n ws l, line = k ++ String ":" v -> without ":" k -> to_int k = Some n ->
    (n = 90 \/ n = 91)%Z -> line_fields ";" v ws ->
    Forall2 (fun w q => to_float w = Some q) ws l -> entry line n (Some (RVec l))
| en_spec : forall line k v ws l m, line = k ++ String ":" v -> without ":" k -> to_int k = Some 93%Z ->
    line_fields ";" v ws -> Forall2 (fun w z => to_int w = Some z) ws l ->
    length m = 32 -> Forall (fun r => length r = 32) m -> List.concat m = l ->
    entry line 93%Z (Some (RSpec m))
| en_other : forall line k v n, line = k ++ String ":" v -> without ":" k -> to_int k = Some n ->
    (forall m, n = Z.of_nat m -> ~ pv_whole m /\ ~ pv_decimal m /\ m <> 90 /\ m <> 91 /\ m <> 93) ->
    entry line n None.
(** A record that can be read: its time stamp, and the entries of its lines. *)
Definition good_record (r : @hy_record D T) (t : D * T) (es : list (Z * option rcell)) : Prop :=
  hr_stamp r = Some t /\
  exists rest, hr_lines r = "TYP OP4A" :: rest /\
    Forall2 (fun line e => entry line (fst e) (snd e)) rest es.
(** The value of number [n] in a record: the last entry with this number, if any. *)
Definition record_value (es : list (Z * option rcell)) (n : Z) (o : option rcell) : Prop :=
  (exists i c, nth_error es i = Some (n, Some c) /\ o = Some c /\
     forall j c', i < j -> nth_error es j <> Some (n, Some c')) \/
  ((forall c, ~ In (n, Some c) es) /\ o = None).
End Parsivel.
