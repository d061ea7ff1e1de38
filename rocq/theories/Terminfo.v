(** Model of terminfo/read.go, terminfo/terminfo.go:77-164 and terminfo/builtin.go.  Strings are lists of
    bytes. *)
From Verif Require Import Base File.

(** ** Reading *)

(** How reads go: they give at most [n] bytes, without or with an error.  Reads past these give as much as
    they can; at the end of the data there is EOF. *)
Inductive tresp := TUpto (n : nat) | TFail (n : nat) (e : gerr).
(** The results of the reads and seeks to come; seeks past these succeed. *)
Record tio := mkIo { io_reads : list tresp; io_seeks : list (option gerr) }.

(** Read into [k] bytes, from what is left of the file. *)
Definition t_read (data : list Z) (rs : list tresp) (k : nat) : list Z * list tresp * list Z * option gerr :=
  let give n rs e := let n := Nat.min n k in (skipn n data, rs, firstn n data, e) in
  match rs with
  | TFail n e :: rs => give n rs (Some e)
  | TUpto n :: rs => match data with [] => ([], rs, [], Some EEOF) | _ => give n rs None end
  | [] => match data with [] => ([], [], [], Some EEOF) | _ => give k [] None end
  end.

(** io.ErrUnexpectedEOF *)
Definition EUnexpected : gerr := EOther (-1).

(** io.ReadFull, as used by binary.Read. *)
Fixpoint read_full (fuel : nat) (data : list Z) (rs : list tresp) (acc : list Z) (k : nat)
  : outcome (list tresp * list Z * option gerr) :=
  match fuel with
  | O => Diverge
  | S fuel =>
    if (k <=? length acc)%nat then Ret (rs, acc, None)
    else
      let '(data, rs, b, err) := t_read data rs (k - length acc) in
      let acc := acc ++ b in
      match err with
      | None => read_full fuel data rs acc k
      | Some e =>
        Ret (rs, acc,
             if (k <=? length acc)%nat then None
             else match e, acc with EEOF, _ :: _ => Some EUnexpected | _, _ => Some e end)
      end
  end.

(** Fuel that is enough for these loops: each iteration uses up a read or some data. *)
Definition t_fuel (data : list Z) (rs : list tresp) : nat := (length data + length rs + 2)%nat.

(** The loop of readNullString over the bytes of one read, terminfo/read.go:146-151. *)
Fixpoint zero_at (p : list Z) : option nat :=
  match p with
  | [] => None
  | b :: p => if b =? 0 then Some O else option_map S (zero_at p)
  end.

(** terminfo/read.go:138-154  func readNullString(r io.Reader) (s string, err error) *)
Fixpoint null_string (fuel : nat) (data : list Z) (rs : list tresp) (bs : list Z)
  : outcome (list tresp * list Z * option gerr) :=
  match fuel with
  | O => Diverge
  | S fuel =>
    let '(data, rs, buf, err) := t_read data rs 8 in
    match err with
    | Some e => Ret (rs, [], Some e)
    | None =>
      match zero_at buf with
      | Some i => Ret (rs, bs ++ firstn i buf, None)
      | None => null_string fuel data rs (bs ++ buf)
      end
    end
  end.

Definition t_seek (io : tio) : tio * option gerr :=
  match io_seeks io with
  | [] => (io, None)
  | e :: ss => (mkIo (io_reads io) ss, e)
  end.

(** uint16 and int16 arithmetic, and little endian. *)
Definition u16 (z : Z) : Z := z mod 65536.
Definition i16 (z : Z) : Z := (z + 32768) mod 65536 - 32768.
Definition le16 (p : list Z) : Z := match p with [a; b] => a + 256 * b | _ => 0 end.

(** terminfo/read.go:128-136  func readUint16(rs io.ReadSeeker, off uint16) (uint16, error); the position is
    that of the seek, what later reads leave behind is never used. *)
Definition read_uint16 (file : list Z) (io : tio) (off : Z) : outcome (tio * Z * option gerr) :=
  let '(io, err) := t_seek io in
  match err with
  | Some e => Ret (io, 0, Some e)
  | None =>
    let data := skipn (Z.to_nat off) file in
    obind (read_full (t_fuel data (io_reads io)) data (io_reads io) [] 2) (fun '(rs, b, err) =>
    Ret (mkIo rs (io_seeks io), match err with None => le16 b | Some _ => 0 end, err))
  end.

(** terminfo/read.go:117-126  func readTableString(rs io.ReadSeeker, off, table uint16) (s string, err error) *)
Definition read_table_string (file : list Z) (io : tio) (off table : Z) : outcome (tio * list Z * option gerr) :=
  obind (read_uint16 file io off) (fun '(io, index, err) =>
  match err with
  | Some e => Ret (io, [], Some e)
  | None =>
    let '(io, err) := t_seek io in
    match err with
    | Some e => Ret (io, [], Some e)
    | None =>
      let data := skipn (Z.to_nat (u16 (table + index))) file in
      obind (null_string (t_fuel data (io_reads io)) data (io_reads io) []) (fun '(rs, s, err) =>
      Ret (mkIo rs (io_seeks io), s, err))
    end
  end).

(** terminfo/read.go:15-39  tiKeys *)
Definition tiKeys : list Z :=
  [0; 66; 68; 69; 70; 71; 72; 73; 74; 75; 67; 216; 217; 77; 59; 76; 164; 82; 81; 87; 61; 79; 83].
(** terminfo/read.go:43-57  tiFuncs *)
Definition tiFuncs : list Z := [0; 28; 40; 16; 13; 5; 39; 36; 27; 26; 34; 89; 88].

(** terminfo/read.go:10-11, terminfo/terminfo.go:42-43 *)
Definition tiMouseEnter : list Z :=
  [27; 91; 63; 49; 48; 48; 48; 104; 27; 91; 63; 49; 48; 48; 50; 104; 27; 91; 63; 49; 48; 49; 53; 104; 27; 91; 63; 49; 48; 48; 54; 104].
Definition tiMouseLeave : list Z :=
  [27; 91; 63; 49; 48; 48; 54; 108; 27; 91; 63; 49; 48; 49; 53; 108; 27; 91; 63; 49; 48; 48; 50; 108; 27; 91; 63; 49; 48; 48; 48; 108].
Definition FuncEnterMouse : nat := 13.
Definition FuncExitMouse : nat := 14.

(** terminfo/terminfo.go:77-81  type Terminfo struct *)
Record terminfo := mkTi { ti_name : list Z; ti_keys : list (list Z); ti_funcs : list (list Z) }.
Definition ti0 : terminfo := mkTi [] (repeat [] 23) (repeat [] 15).

(** The loops of ReadFrom, terminfo/read.go:95-109: [i] is the index, [ns] the numbers of the capabilities
    from there on, [dst] the strings. *)
Fixpoint read_caps (file : list Z) (io : tio) (str table : Z) (ns : list Z) (i : nat) (dst : list (list Z))
  : outcome (tio * list (list Z) * option gerr) :=
  match ns with
  | [] => Ret (io, dst, None)
  | n :: ns =>
    obind (read_table_string file io (u16 (str + u16 (2 * n))) table) (fun '(io, s, err) =>
    match err with
    | Some e => Ret (io, dst, Some e)
    | None => read_caps file io str table ns (S i) (upd dst i s)
    end)
  end.

(** encoding/binary: the header, six int16. *)
Fixpoint header_of (p : list Z) (n : nat) : list Z :=
  match n with
  | O => []
  | S n => i16 (le16 (firstn 2 p)) :: header_of (skipn 2 p) n
  end.

(** The offsets of the string offsets and of the string table, terminfo/read.go:87-93. *)
Definition ti_offsets (h : list Z) : Z * Z :=
  let h1 := nth 1 h 0 in
  let h2 := nth 2 h 0 in
  let h2 := if negb (Z.rem (i16 (h1 + h2)) 2 =? 0) then i16 (h2 + 1) else h2 in
  let str := u16 (12 + u16 (i16 (i16 (h1 + h2) + i16 (2 * nth 3 h 0)))) in
  (str, u16 (str + u16 (2 * u16 (nth 4 h 0)))).

(** terminfo/read.go:64-115  func (ti *Terminfo) ReadFrom(rs io.ReadSeeker) error; the reader is at the start
    of the file. *)
Definition read_from (ti : terminfo) (file : list Z) (io : tio) : outcome (terminfo * tio * option gerr) :=
  obind (read_full (t_fuel file (io_reads io)) file (io_reads io) [] 12) (fun '(rs, b, err) =>
  let io := mkIo rs (io_seeks io) in
  match err with
  | Some e => Ret (ti, io, Some e)
  | None =>
    let h := header_of b 6 in
    if negb (nth 0 h 0 =? 282) then Ret (ti, io, Some (EFmt (EOther (nth 0 h 0))))
    else
      let '(str, table) := ti_offsets h in
      obind (read_caps file io str table (skipn 1 tiKeys) 1 (ti_keys ti)) (fun '(io, keys, err) =>
      let ti := mkTi (ti_name ti) keys (ti_funcs ti) in
      match err with
      | Some e => Ret (ti, io, Some e)
      | None =>
        obind (read_caps file io str table (skipn 1 tiFuncs) 1 (ti_funcs ti)) (fun '(io, funcs, err) =>
        match err with
        | Some e => Ret (mkTi (ti_name ti) (ti_keys ti) funcs, io, Some e)
        | None =>
          Ret (mkTi (ti_name ti) (ti_keys ti) (upd (upd funcs FuncEnterMouse tiMouseEnter) FuncExitMouse tiMouseLeave), io, None)
        end)
      end)
  end).

(** ** Loading *)

(** strings.Split(s, ":") *)
Fixpoint split_colon (s : list Z) : list (list Z) :=
  match s with
  | [] => [[]]
  | c :: s =>
    match split_colon s with
    | [] => [[c]]                                        (* never *)
    | p :: ps => if c =? 58 then [] :: p :: ps else (c :: p) :: ps
    end
  end.

(** strings.Contains *)
Fixpoint starts (p s : list Z) : bool :=
  match p, s with
  | [], _ => true
  | x :: p, y :: s => (x =? y) && starts p s
  | _ :: _, [] => false
  end.
Fixpoint contains (s p : list Z) : bool :=
  starts p s || match s with [] => false | _ :: s => contains s p end.

(** terminfo/terminfo.go:85  defaultPath: /usr/share/terminfo *)
Definition defaultPath : list Z :=
  [47; 117; 115; 114; 47; 115; 104; 97; 114; 101; 47; 116; 101; 114; 109; 105; 110; 102; 111].
Definition dot_terminfo : list Z := [46; 116; 101; 114; 109; 105; 110; 102; 111].

(** The environment: two variables ([] if not set), the home directory if there is a current user, and
    filepath.Join. *)
Record tenv := mkEnv { env_terminfo : list Z; env_dirs : list Z; env_home : option (list Z); env_join : list (list Z) -> list Z }.

(** The loop of SearchPath over TERMINFO_DIRS, terminfo/terminfo.go:112-121. *)
Fixpoint add_dirs (dirs : list (list Z)) (cands : list (list Z)) (added : bool) : list (list Z) * bool :=
  match dirs with
  | [] => (cands, added)
  | [] :: dirs => add_dirs dirs (cands ++ [defaultPath]) true
  | dir :: dirs => add_dirs dirs (cands ++ [dir]) added
  end.

(** terminfo/terminfo.go:90-130  func SearchPath() []string *)
Definition search_path (env : tenv) : list (list Z) :=
  match env_terminfo env with
  | _ :: _ => [env_terminfo env]
  | [] =>
    let cands := match env_home env with Some h => [env_join env [h; dot_terminfo]] | None => [] end in
    let '(cands, added) := match env_dirs env with [] => (cands, false) | _ => add_dirs (split_colon (env_dirs env)) cands false end in
    if added then cands else cands ++ [defaultPath]
  end.

(** hex.EncodeToString of one byte *)
Definition hex_digit (d : Z) : Z := if d <? 10 then 48 + d else 87 + d.
Definition hex_byte (b : Z) : list Z := [hex_digit (b / 16); hex_digit (b mod 16)].

(** A file that can be opened: its bytes, how reading it goes, and the error of closing it. *)
Record tfile := mkFile { tf_bytes : list Z; tf_io : tio; tf_close : option gerr }.

(** What Load gives: a Terminfo or none, and an error or none. *)
Definition load_res := (option terminfo * option gerr)%type.
Definition ENoTerm : gerr := EFmt (EOther 1).
Definition EUnsupported : gerr := EFmt (EOther 2).

(** Maps from names: the first entry of a name counts. *)
Fixpoint lookup {A} (m : list (list Z * A)) (k : list Z) : option A :=
  match m with
  | [] => None
  | (k', a) :: m => if list_eq_dec Z.eq_dec k' k then Some a else lookup m k
  end.

(** terminfo/builtin.go:10-26  func GetBuiltin(term string) ( *Terminfo, error); the tables are arguments. *)
Definition get_builtin (builtins compat : list (list Z * terminfo)) (term : list Z) : load_res :=
  match term with
  | [] => (None, Some ENoTerm)
  | _ =>
    match lookup builtins term with
    | Some ti => (Some ti, None)
    | None =>
      match find (fun c => contains term (fst c)) compat with
      | Some c => (Some (snd c), None)
      | None => (None, Some EUnsupported)
      end
    end
  end.

(** The candidates of a directory, terminfo/terminfo.go:144-147; slicing the first byte of an empty name
    panics. *)
Definition candidates (env : tenv) (term path : list Z) : outcome (list (list Z)) :=
  match term with
  | [] => Panic
  | c :: _ => Ret [env_join env [path; [c]; term]; env_join env [path; hex_byte c; term]]
  end.

(** The loops of Load, terminfo/terminfo.go:143-162: the first file that opens, in the order of the paths. *)
Fixpoint first_open (open : list Z -> option tfile) (fps : list (list Z)) : option tfile :=
  match fps with
  | [] => None
  | fp :: fps => match open fp with Some f => Some f | None => first_open open fps end
  end.
Fixpoint try_paths (env : tenv) (open : list Z -> option tfile) (term : list Z) (paths : list (list Z)) : outcome (option tfile) :=
  match paths with
  | [] => Ret None
  | path :: paths =>
    obind (candidates env term path) (fun fps =>
    match first_open open fps with
    | Some f => Ret (Some f)
    | None => try_paths env open term paths
    end)
  end.

(** terminfo/terminfo.go:138-164  func Load(term string) ( *Terminfo, error); [cache] is the cache. *)
Definition load (builtins compat : list (list Z * terminfo)) (env : tenv) (open : list Z -> option tfile)
  (cache : list (list Z * terminfo)) (term : list Z) : outcome (list (list Z * terminfo) * load_res) :=
  match lookup cache term with
  | Some ti => Ret (cache, (Some ti, None))
  | None =>
    obind (try_paths env open term (search_path env)) (fun r =>
    match r with
    | Some f =>
      obind (read_from ti0 (tf_bytes f) (tf_io f)) (fun '(ti, _, err) =>
      let err := match err with Some e => Some e | None => tf_close f end in
      Ret (match err with None => (term, ti) :: cache | Some _ => cache end, (Some ti, err)))
    | None => Ret (cache, get_builtin builtins compat term)
    end)
  end.
