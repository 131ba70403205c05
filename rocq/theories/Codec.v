(** encoding/json on typed values: encoders to and decoders from JSON trees.

    [enc] is json.Marshal of a value; [dec old j] is json.Unmarshal into a
    variable holding [old].  The text layer (JsonText) turns trees into bytes
    and back.  Simplifications:
    - after a type error encoding/json keeps filling the target before it
      returns the error; here only the error is kept;
    - elements of a slice beyond its length but within its capacity, which
      encoding/json re-uses when a key occurs twice, count as zero;
    - a json.RawMessage is kept as a tree, without the white space between
      its tokens;
    - the pointer-cycle detection and the nesting limit of the encoder are
      not modelled.

    Parameters: [float_lib] is strconv.AppendFloat as used by the float64
    encoder, and strconv.ParseFloat; [ext_lib] is the extension registry
    (gltf.go:467-486) and the encoders of the registered Go types. *)
From Verif Require Import Base Types Doc F64 JsonText.

Record codec (A : Type) : Type := mkCodec {
  enc : A -> res json;
  dec : A -> json -> res A
}.
Arguments mkCodec {A} enc dec.
Arguments enc {A} c _.
Arguments dec {A} c _ _.

Definition ErrType : error := ErrMsg "json: cannot unmarshal into Go value".
Definition ErrValue : error := ErrMsg "json: unsupported value".

Record float_lib : Type := mkFloatLib {
  fmt64 : Z -> string;               (* of a finite float64 *)
  parse64 : string -> option Z       (* None: out of range *)
}.

Record ext_lib : Type := mkExtLib {
  registry : string -> option (json -> res any);   (* gltf.go:467-486 *)
  ext_enc : string -> any -> res json              (* json.Marshal of a registered Go value *)
}.

Section Traverse.
Context {A B : Type} (f : A -> res B).
Fixpoint traverse (l : list A) : res (list B) :=
  match l with
  | [] => Ok []
  | a :: l' => b <- f a ;; bs <- traverse l' ;; Ok (b :: bs)
  end.
End Traverse.

(** ** Strings, booleans, integers *)

Definition quote_str (s : string) : string := bytes_str (quote (str_bytes s)).
Definition unquote_str (s : string) : option string :=
  match unquote (str_bytes s) with Some b => Some (bytes_str b) | None => None end.

Definition str_of_json (j : json) : res (option string) :=   (* None: null *)
  match j with
  | JNull => Ok None
  | JStr raw => match unquote_str raw with Some s => Ok (Some s) | None => Err ErrType end
  | _ => Err ErrType
  end.

Definition c_str : codec string := mkCodec
  (fun s => Ok (JStr (quote_str s)))
  (fun old j => o <- str_of_json j ;; Ok (match o with Some s => s | None => old end)).

Definition c_bool : codec bool := mkCodec
  (fun b => Ok (JBool b))
  (fun old j => match j with JNull => Ok old | JBool b => Ok b | _ => Err ErrType end).

(** strconv.AppendInt *)
Fixpoint digits (fuel : nat) (n : Z) : bytes :=
  match fuel with
  | O => []
  | S f => (if n / 10 =? 0 then [] else digits f (n / 10)) ++ [z2b (48 + n mod 10)]
  end.
Definition fmt_int (n : Z) : string :=
  bytes_str (if n <? 0 then "-"%char :: digits 20 (- n) else digits 20 n).

(** strconv.ParseUint and ParseInt in base 10 on a number literal. *)
Definition parse_digits (l : bytes) : option Z :=
  match l with
  | [] => None
  | _ => if forallb is_digit l then Some (fold_left (fun a d => 10 * a + (b2z d - 48)) l 0) else None
  end.
Definition parse_uint (max : Z) (lit : string) : option Z :=
  match parse_digits (str_bytes lit) with
  | Some n => if n <=? max then Some n else None
  | None => None
  end.
Definition parse_int (lit : string) : option Z :=
  match str_bytes lit with
  | "-"%char :: l => match parse_digits l with
                     | Some n => if n <=? 2 ^ 63 then Some (- n) else None
                     | None => None
                     end
  | l => match parse_digits l with
         | Some n => if n <? 2 ^ 63 then Some n else None
         | None => None
         end
  end.

Definition c_int : codec Z := mkCodec
  (fun n => Ok (JNum (fmt_int n)))
  (fun old j =>
     match j with
     | JNull => Ok old
     | JNum lit => match parse_int lit with Some n => Ok n | None => Err ErrType end
     | _ => Err ErrType
     end).

Definition uint_of_json (max : Z) (j : json) : res (option Z) :=
  match j with
  | JNull => Ok None
  | JNum lit => match parse_uint max lit with Some n => Ok (Some n) | None => Err ErrType end
  | _ => Err ErrType
  end.

(** An unsigned integer type without methods: Target (const.go:153-160). *)
Definition c_uint (max : Z) : codec Z := mkCodec
  (fun n => Ok (JNum (fmt_int n)))
  (fun old j => o <- uint_of_json max j ;; Ok (match o with Some n => n | None => old end)).

(** ** Enumerations with MarshalJSON and UnmarshalJSON methods.  Go map
    lookups: a missing key gives the zero value.  A JSON null leaves the
    temporary at 0 or "" before the lookup. *)
Section Enum.
Context {E : Type} (eqb : E -> E -> bool) (zero : E).

Definition lookup_by {K V} (keqb : K -> K -> bool) (tbl : list (K * V)) (k : K) : option V :=
  match find (fun p => keqb (fst p) k) tbl with Some p => Some (snd p) | None => None end.
Definition swap {K V} (tbl : list (K * V)) : list (V * K) := map (fun p => (snd p, fst p)) tbl.

Definition c_enum_num (max : Z) (tbl : list (E * Z)) : codec E := mkCodec
  (fun e => Ok (JNum (fmt_int (match lookup_by eqb tbl e with Some n => n | None => 0 end))))
  (fun _ j =>
     o <- uint_of_json max j ;;
     let tmp := match o with Some n => n | None => 0 end in
     Ok (match lookup_by Z.eqb (swap tbl) tmp with Some e => e | None => zero end)).

Definition c_enum_str (strict : bool) (tbl : list (E * string)) : codec E := mkCodec
  (fun e => Ok (JStr (quote_str (match lookup_by eqb tbl e with Some s => s | None => "" end))))
  (fun _ j =>
     o <- str_of_json j ;;
     let tmp := match o with Some s => s | None => ""%string end in
     match lookup_by String.eqb (swap tbl) tmp with
     | Some e => Ok e
     | None => if strict then Err (ErrMsg "gltf: unknown accessor's type") else Ok zero
     end).
End Enum.

(** const.go:64-91 *)
Definition ct_table : list (ComponentType * Z) :=
  [(CByte, 5120); (CUbyte, 5121); (CShort, 5122); (CUshort, 5123); (CUint, 5125); (CFloat, 5126)].
Definition c_ct : codec ComponentType := c_enum_num ct_eqb CFloat 65535 ct_table.
(** const.go:118-151 *)
Definition at_table : list (AccessorType * string) :=
  [(AScalar, "SCALAR"); (AVec2, "VEC2"); (AVec3, "VEC3"); (AVec4, "VEC4");
   (AMat2, "MAT2"); (AMat3, "MAT3"); (AMat4, "MAT4")]%string.
Definition c_at : codec AccessorType := c_enum_str at_eqb AScalar true at_table.
(** const.go:153-160 *)
Definition c_tgt : codec Z := c_uint 65535.
(** const.go:165-207: PrimitiveTriangles = 0, PrimitivePoints = 1, ... *)
Definition mode_table : list (Z * Z) := [(1, 0); (2, 1); (3, 2); (4, 3); (0, 4); (5, 5); (6, 6)].
Definition c_mode : codec Z := c_enum_num Z.eqb 0 255 mode_table.
(** const.go:209-241 *)
Definition alpha_table : list (Z * string) := [(0, "OPAQUE"); (1, "MASK"); (2, "BLEND")]%string.
Definition c_alpha : codec Z := c_enum_str Z.eqb 0 false alpha_table.
(** const.go:243-272: MagLinear = 1, MagNearest = 2 *)
Definition mag_table : list (Z * Z) := [(2, 9728); (1, 9729)].
Definition c_mag : codec Z := c_enum_num Z.eqb 0 65535 mag_table.
(** const.go:274-315: MinLinear = 1, MinNearestMipMapLinear = 2, MinNearest = 3,
    MinNearestMipMapNearest = 4, MinLinearMipMapNearest = 5, MinLinearMipMapLinear = 6 *)
Definition minf_table : list (Z * Z) :=
  [(3, 9728); (1, 9729); (4, 9984); (5, 9985); (2, 9986); (6, 9987)].
Definition c_minf : codec Z := c_enum_num Z.eqb 0 65535 minf_table.
(** const.go:317-346: WrapRepeat = 0, WrapClampToEdge = 1, WrapMirroredRepeat = 2 *)
Definition wrap_table : list (Z * Z) := [(1, 33071); (2, 33648); (0, 10497)].
Definition c_wrap : codec Z := c_enum_num Z.eqb 0 65535 wrap_table.
(** const.go:348-378 *)
Definition interp_table : list (Z * string) := [(0, "LINEAR"); (1, "STEP"); (2, "CUBICSPLINE")]%string.
Definition c_interp : codec Z := c_enum_str Z.eqb 0 false interp_table.
(** const.go:380-414 *)
Definition trs_table : list (Z * string) :=
  [(0, "translation"); (1, "rotation"); (2, "scale"); (3, "weights")]%string.
Definition c_trs : codec Z := c_enum_str Z.eqb 0 false trs_table.

(** ** Containers *)

(** A pointer; null for nil. *)
Definition c_ptr {A} (zero : A) (c : codec A) : codec (option A) := mkCodec
  (fun o => match o with None => Ok JNull | Some a => enc c a end)
  (fun old j =>
     match j with
     | JNull => Ok None
     | _ => a <- dec c (match old with Some a => a | None => zero end) j ;; Ok (Some a)
     end).

Section Elems.
Context {A : Type} (zero : A) (c : codec A).
(** Decoding elements into the old ones, then into zero values. *)
Fixpoint dec_elems (old : list A) (l : list json) : res (list A) :=
  match l with
  | [] => Ok []
  | j :: l' =>
      a <- dec c (match old with a :: _ => a | [] => zero end) j ;;
      r <- dec_elems (match old with _ :: o => o | [] => [] end) l' ;;
      Ok (a :: r)
  end.
(** A fixed array: the elements of the JSON array that are too many are
    skipped, missing ones are zeroed. *)
Fixpoint dec_array (old : list A) (l : list json) : res (list A) :=
  match old with
  | [] => Ok []
  | a :: old' =>
      match l with
      | [] => r <- dec_array old' [] ;; Ok (zero :: r)
      | j :: l' => a' <- dec c a j ;; r <- dec_array old' l' ;; Ok (a' :: r)
      end
  end.

(** A slice whose nil and empty values are told apart ... *)
Definition c_oslice : codec (option (list A)) := mkCodec
  (fun o => match o with
            | None => Ok JNull
            | Some l => js <- traverse (enc c) l ;; Ok (JArr js)
            end)
  (fun old j =>
     match j with
     | JNull => Ok None
     | JArr l => r <- dec_elems (match old with Some o => o | None => [] end) l ;; Ok (Some r)
     | _ => Err ErrType
     end).
(** ... or not, because the field has omitempty. *)
Definition c_slice : codec (list A) := mkCodec
  (fun l => js <- traverse (enc c) l ;; Ok (JArr js))
  (fun old j =>
     match j with
     | JNull => Ok []
     | JArr l => dec_elems old l
     | _ => Err ErrType
     end).
Definition c_array : codec (list A) := mkCodec
  (fun l => js <- traverse (enc c) l ;; Ok (JArr js))
  (fun old j =>
     match j with
     | JNull => Ok old
     | JArr l => dec_array old l
     | _ => Err ErrType
     end).
End Elems.

(** Maps: sorted association lists. *)
Fixpoint map_set {A} (k : string) (v : A) (m : list (string * A)) : list (string * A) :=
  match m with
  | [] => [(k, v)]
  | (k', v') :: m' =>
      match String.compare k k' with
      | Lt => (k, v) :: m
      | Eq => (k, v) :: m'
      | Gt => (k', v') :: map_set k v m'
      end
  end.
Definition map_sets {A} (m : list (string * A)) (kvs : list (string * A)) : list (string * A) :=
  fold_left (fun m p => map_set (fst p) (snd p) m) kvs m.

Definition key_of (raw : string) : res string :=
  match unquote_str raw with Some k => Ok k | None => Err ErrType end.

(** PrimitiveAttributes = map[string]int (const.go:163) *)
Definition c_attrs : codec (option (list (string * Z))) := mkCodec
  (fun o => match o with
            | None => Ok JNull
            | Some m => js <- traverse (fun p => j <- enc c_int (snd p) ;; Ok (quote_str (fst p), j)) m ;;
                        Ok (JObj js)
            end)
  (fun old j =>
     match j with
     | JNull => Ok None
     | JObj m =>
         kvs <- traverse (fun p => k <- key_of (fst p) ;; v <- dec c_int 0 (snd p) ;; Ok (k, v)) m ;;
         Ok (Some (map_sets (match old with Some o => o | None => [] end) kvs))
     | _ => Err ErrType
     end).

(** ** Floats, values of type any, extensions *)
Section Params.
Context (F : float_lib) (X : ext_lib).

Definition enc_f64 (f : Z) : res json :=
  if f64_finite f then Ok (JNum (fmt64 F f)) else Err ErrValue.
Definition c_f64 : codec Z := mkCodec enc_f64
  (fun old j =>
     match j with
     | JNull => Ok old
     | JNum lit => match parse64 F lit with Some f => Ok f | None => Err ErrType end
     | _ => Err ErrType
     end).

Fixpoint enc_any (v : any) : res json :=
  match v with
  | VNull => Ok JNull
  | VBool b => Ok (JBool b)
  | VNum f => enc_f64 f
  | VStr s => Ok (JStr (quote_str s))
  | VArr l => js <- traverse enc_any l ;; Ok (JArr js)
  | VObj m => js <- traverse (fun p => j <- enc_any (snd p) ;; Ok (quote_str (fst p), j)) m ;; Ok (JObj js)
  end.
Fixpoint dec_any (j : json) : res any :=
  match j with
  | JNull => Ok VNull
  | JBool b => Ok (VBool b)
  | JNum lit => match parse64 F lit with Some f => Ok (VNum f) | None => Err ErrType end
  | JStr raw => match unquote_str raw with Some s => Ok (VStr s) | None => Err ErrType end
  | JArr l => vs <- traverse dec_any l ;; Ok (VArr vs)
  | JObj m =>
      kvs <- traverse (fun p => k <- key_of (fst p) ;; v <- dec_any (snd p) ;; Ok (k, v)) m ;;
      Ok (VObj (map_sets [] kvs))
  end.
Definition c_any : codec any := mkCodec enc_any (fun _ j => dec_any j).

(** encode.go:440-463, Extensions.UnmarshalJSON: the members as a map of raw
    messages, then the factory of each key, or the raw message when there is
    none or it fails. *)
Definition dec_extv (k : string) (j : json) : res extv :=
  match registry X k with
  | Some factory =>
      match factory j with
      | Ok v => Ok (EVal v)
      | Err _ => Ok (ERaw j)
      | Panic => Panic
      end
  | None => Ok (ERaw j)
  end.
Definition dec_ext (old : Extensions) (j : json) : res Extensions :=
  match j with
  | JNull => Ok old
  | JObj m =>
      raw <- traverse (fun p => k <- key_of (fst p) ;; Ok (k, snd p)) m ;;
      kvs <- traverse (fun p => v <- dec_extv (fst p) (snd p) ;; Ok (fst p, v)) (map_sets [] raw) ;;
      Ok (map_sets old kvs)
  | _ => Err ErrType
  end.
(** A map[string]any: raw messages are Marshalers, whose text is compacted
    and HTML-escaped; so is the text of the other values. *)
Definition enc_extv (k : string) (e : extv) : res json :=
  match e with
  | ERaw j => Ok (html_json j)
  | EVal v => j <- ext_enc X k v ;; Ok (html_json j)
  end.
Definition enc_ext (m : Extensions) : res json :=
  js <- traverse (fun p => j <- enc_extv (fst p) (snd p) ;; Ok (quote_str (fst p), j)) m ;; Ok (JObj js).
Definition c_ext : codec Extensions := mkCodec enc_ext dec_ext.
End Params.

(** ** Structs *)

Inductive field (T : Type) : Type :=
| Fld {A : Type} (name : string) (get : T -> A) (set : A -> T -> T) (c : codec A) (omit : A -> bool).
Arguments Fld {T A} name get set c omit.
Definition fname {T} (f : field T) : string := match f with Fld n _ _ _ _ => n end.

(** Letters compared without case; U+017F and U+212A are folded to s and k
    (encoding/json/fold.go). *)
Fixpoint fold_name (l : bytes) : bytes :=
  match l with
  | [] => []
  | b :: l' =>
      let c := b2z b in
      if (97 <=? c) && (c <=? 122) then z2b (c - 32) :: fold_name l'
      else match l' with
           | b1 :: l1 =>
               if (c =? 0xC5) && (b2z b1 =? 0xBF) then "S"%char :: fold_name l1
               else match l1 with
                    | b2 :: l2 => if (c =? 0xE2) && (b2z b1 =? 0x84) && (b2z b2 =? 0xAA)
                                  then "K"%char :: fold_name l2 else b :: fold_name l'
                    | [] => b :: fold_name l'
                    end
           | [] => b :: fold_name l'
           end
  end.
Definition fold_eq (a b : string) : bool :=
  if list_eq_dec ascii_dec (fold_name (str_bytes a)) (fold_name (str_bytes b)) then true else false.

Section Struct.
Context {T : Type}.

(** The field for a key: an exact match wins. *)
Definition find_field (fs : list (field T)) (k : string) : option (field T) :=
  match find (fun f => String.eqb (fname f) k) fs with
  | Some f => Some f
  | None => find (fun f => fold_eq (fname f) k) fs
  end.

Definition dec_field (f : field T) (x : T) (j : json) : res T :=
  match f with Fld _ get set c _ => a <- dec c (get x) j ;; Ok (set a x) end.

Fixpoint dec_members (fs : list (field T)) (x : T) (m : list (string * json)) : res T :=
  match m with
  | [] => Ok x
  | (raw, j) :: m' =>
      k <- key_of raw ;;
      x' <- (match find_field fs k with Some f => dec_field f x j | None => Ok x end) ;;
      dec_members fs x' m'
  end.

Definition dec_struct (fs : list (field T)) (x : T) (j : json) : res T :=
  match j with
  | JNull => Ok x
  | JObj m => dec_members fs x m
  | _ => Err ErrType
  end.

Fixpoint enc_fields (fs : list (field T)) (x : T) : res (list (string * json)) :=
  match fs with
  | [] => Ok []
  | Fld name get _ c omit :: fs' =>
      if omit (get x) then enc_fields fs' x
      else j <- enc c (get x) ;; m <- enc_fields fs' x ;; Ok ((name, j) :: m)
  end.
Definition enc_struct (fs : list (field T)) (x : T) : res json :=
  m <- enc_fields fs x ;; Ok (JObj m).

(** A struct without methods. *)
Definition c_struct (fs : list (field T)) : codec T := mkCodec (enc_struct fs) (dec_struct fs).
(** A struct whose UnmarshalJSON decodes into a fresh value with defaults. *)
Definition c_fresh (dflt : T) (fs : list (field T)) : codec T :=
  mkCodec (enc_struct fs) (fun _ j => dec_struct fs dflt j).
End Struct.

(** omitempty *)
Definition never {A} (_ : A) : bool := false.
Definition str_empty (s : string) : bool := String.eqb s "".
Definition z_zero (z : Z) : bool := z =? 0.
Definition is_nil {A} (l : list A) : bool := match l with [] => true | _ => false end.
Definition is_none {A} (o : option A) : bool := match o with None => true | _ => false end.
Definition any_nil (v : any) : bool := match v with VNull => true | _ => false end.

(** Go == on float64 arrays. *)
Fixpoint arr_eq (a b : list Z) : bool :=
  match a, b with
  | [], [] => true
  | x :: a', y :: b' => f64_eq x y && arr_eq a' b'
  | _, _ => false
  end.
