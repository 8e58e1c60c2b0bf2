(** What a decoded row is supposed to look like in SQL: relates the values the
    tool holds (the data types of the model, none of its functions) to the SQL
    values they stand for. *)
From Verif Require Import GoBase Utils Ibdata SpecText SpecSql SpecRecord.
Local Open Scope list_scope.

(** MySQL's type code of BIT columns *)
Definition is_bit (c : Column) : Prop := c_mysql c = 16.

(** The three columns InnoDB adds to every clustered index. *)
Definition internal (c : Column) : Prop :=
  c_name c = txt "DB_ROW_ID" \/ c_name c = txt "DB_TRX_ID" \/ c_name c = txt "DB_ROLL_PTR".

(** The text a non-NULL value is shown as: strings as they are, integers in
    decimal, floats as the Go run time prints their bit pattern. *)
Inductive text_of (rt : runtime) : gval -> bytes -> Prop :=
| text_str s : text_of rt (VStr s) s
| text_int n t : int_text n t -> text_of rt (VInt n) t
| text_uint n t : int_text n t -> text_of rt (VUint n) t
| text_f32 b : text_of rt (VF32 b) (rt_fmt32 rt b)
| text_f64 b : text_of rt (VF64 b) (rt_fmt64 rt b).

(** A column holding a value that stands for a given SQL value.  The tool
    keeps SQL NULL as the string NULL (or as no value). *)
Inductive stands_for (rt : runtime) : Column -> sqlval -> Prop :=
| st_null c : c_value c = VNil \/ c_value c = VStr (txt "NULL") -> ~ is_bit c -> stands_for rt c SNull
| st_text c t : text_of rt (c_value c) t -> ~ is_bit c -> c_binary c = false -> stands_for rt c (SStr t)
| st_bytes c h b : c_value c = VStr h -> unhex h = Some b -> ~ is_bit c -> c_binary c = true ->
    stands_for rt c (SBytes b)
| st_bits c n : c_value c = VUint n -> is_bit c -> c_binary c = false -> stands_for rt c (SBits n).

(** The dictionary's column descriptor agrees with the storage engine's layout
    of the column: types 5 (BLOB), 12 (VARMYSQL) and 13 (MYSQL), and columns
    without a declared length, vary in length. *)
Definition describes (c : Column) (l : layout) : Prop :=
  c_null c = l_nullable l /\
  match l_fixed l with
  | Some n => n <> 0 /\ c_len c = n /\ ~ In (c_type c) [5; 12; 13]
  | None => (In (c_type c) [5; 12; 13] \/ c_len c = 0)
            /\ (l_big l = true <-> 255 < c_len c \/ c_type c = 5)
  end.

(** The row decoded from the stored columns: a NULL column holds the string
    NULL, any other column the value ParseData gives for exactly its own bytes;
    [after] is what follows the record in the page.  A column whose stored
    form is external contributes the bytes held in the record.  Decoding a
    DECIMAL value prints a line; nothing else does. *)
Definition remark (c : Column) : list bytes :=
  if (c_type c =? 3) && (c_mysql c =? 246) then [txt "test MYSQL_TYPE_NEWDECIMAL"] else [].
Fixpoint remarks (cols : list Column) (fs : list stored) : list bytes :=
  match cols, fs with
  | c :: cs, FNull :: fs' => remarks cs fs'
  | c :: cs, _ :: fs' => remark c ++ remarks cs fs'
  | _, _ => []
  end.
Inductive row_of (rt : runtime) (after : bytes) :
  list Column -> list layout -> list stored -> list Column -> Prop :=
| row_nil : row_of rt after [] [] [] []
| row_null c cs l ls fs r : row_of rt after cs ls fs r ->
    row_of rt after (c :: cs) (l :: ls) (FNull :: fs)
      (mkColumn (c_name c) (c_type c) (c_mysql c) (c_pos c) (c_len c) (VStr (txt "NULL"))
                (c_null c) (c_binary c) (c_unsigned c) (c_table c) :: r)
| row_val c cs l ls f fs v bin r : f <> FNull ->
    ParseData rt (c_type c) (c_mysql c) (content f ++ body fs ++ after) (zlen (content f))
              (match l_fixed l with Some n => n | None => 0 end) (c_unsigned c) (c_binary c)
    = (remark c, Ok (v, bin)) ->
    row_of rt after cs ls fs r ->
    row_of rt after (c :: cs) (l :: ls) (f :: fs)
      (mkColumn (c_name c) (c_type c) (c_mysql c) (c_pos c) (c_len c) v
                (c_null c) bin (c_unsigned c) (c_table c) :: r).

(** Column descriptors that agree in everything but the value they hold. *)
Definition same_column (c c' : Column) : Prop :=
  c_name c = c_name c' /\ c_type c = c_type c' /\ c_mysql c = c_mysql c' /\ c_pos c = c_pos c'
  /\ c_len c = c_len c' /\ c_null c = c_null c' /\ c_binary c = c_binary c'
  /\ c_unsigned c = c_unsigned c' /\ c_table c = c_table c'.

(** Values the printed statements can carry (see C26, C28, C29). *)
Definition printable (v : sqlval) : Prop :=
  match v with
  | SStr t => Forall (fun b => 0 <= b < 256) t /\ t <> txt "NULL" /\ t <> txt "0001-01-01T00:00:00Z"
  | SBits n => n = 0 \/ n = 1
  | _ => True
  end.
(** The values of the user's columns of a row. *)
Inductive shows (rt : runtime) : list Column -> list sqlval -> Prop :=
| shows_nil : shows rt [] []
| shows_internal c cs vs : internal c -> shows rt cs vs -> shows rt (c :: cs) vs
| shows_user c cs v vs : ~ internal c -> stands_for rt c v -> printable v -> shows rt cs vs ->
    shows rt (c :: cs) (v :: vs).
