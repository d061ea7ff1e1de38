(** Model of how runInteractive of /repo/cmd/decode/main.go gets its input: a goroutine that reads and decodes, a channel without
    a buffer, and the select, in every order these may go.  Standard output takes everything, as in DecodeCmd.v.  That the
    goroutine copies arguments (161-163) is what makes them values here.  What term.Suspend does to the Input while the goroutine
    is reading is not modelled. *)
From Verif Require Import Base Utf8 Escape Decode Buffer File Input DecodeCmd.

(** cmd/decode/main.go:153-174: where the goroutine is: before ReadMore; before Decode, with ReadMore's error; sending what Decode
    returned; sending the error; gone, the channel closed. *)
Inductive reader := RdRead | RdDecode (err : option gerr) | RdSend (ev : event) (err : option gerr) | RdErr (e : gerr) | RdClosed.

(** The terminal's input, the goroutine, [prior], what has been done, and how runInteractive ended. *)
Record dst := mkDst { ds_in : Input; ds_rd : reader; ds_prior : Z; ds_acts : list act; ds_fin : option fin }.
Definition dst0 (i : Input) : dst := mkDst i RdRead 0 [] None.

(** What may happen next: the goroutine reads or decodes, [rs] and [full] being as in Input.v; the select receives input, [susp] being
    whether term.Suspend would succeed, or one of the signals. *)
Inductive lab := LRead (rs : list rsys) | LDecode (full : bool) | LRecv (susp : bool) | LStop | LInterrupt | LResize.

(** cmd/decode/main.go:178-204: a choice of the select, the goroutine being left at [rd]. *)
Definition choose (s : dst) (rd : reader) (c : sel) : dst * list sel :=
  let '(acts, prior, f) :=
    match c with
    | SStop => ([], ds_prior s, Some FSignal)
    | SInterrupt => handle true (ds_prior s) 3 []
    | SResize => ([AResize], ds_prior s, None)
    | SInput e a susp => handle susp (ds_prior s) e a
    | SInputErr => ([], ds_prior s, Some FInput)
    end in
  (mkDst (ds_in s) rd prior (ds_acts s ++ acts) f, [c]).

(** cmd/decode/main.go:139-205  func runInteractive(term *anansi.Term) error: one step, with what the select received; [None] if
    it cannot happen now. *)
Definition dstep (msg : gerr -> list Z) (s : dst) (l : lab) : outcome (option (dst * list sel)) :=
  let i := ds_in s in
  let main (x : option (dst * list sel)) := Ret (match ds_fin s with Some _ => None | None => x end) in
  let goro i rd := Ret (Some (mkDst i rd (ds_prior s) (ds_acts s) (ds_fin s), [])) in
  match l with
  | LRead rs =>
    match ds_rd s with
    | RdRead => obind (read_more msg i rs) (fun '(i, _, e) => goro i (RdDecode e))
    | _ => Ret None
    end
  | LDecode full =>
    match ds_rd s with
    | RdDecode err =>
      obind (in_decode (in_eof i) full (in_buf i)) (fun '(p, r) =>
      goro (in_set_buf i p) (match r, err with Some ev, _ => RdSend ev err | None, Some e => RdErr e | None, None => RdRead end))
    | _ => Ret None
    end
  | LRecv susp =>
    main (match ds_rd s with
          | RdSend (e, a) err => Some (choose s (RdDecode err) (SInput e a susp))
          | RdErr _ => Some (choose s RdClosed SInputErr)
          | RdClosed => Some (choose s RdClosed (SInput 0 [] susp))
          | _ => None
          end)
  | LStop => main (Some (choose s (ds_rd s) SStop))
  | LInterrupt => main (Some (choose s (ds_rd s) SInterrupt))
  | LResize => main (Some (choose s (ds_rd s) SResize))
  end.

(** A run, with what the select received. *)
Fixpoint druns (msg : gerr -> list Z) (s : dst) (ls : list lab) : outcome (option (dst * list sel)) :=
  match ls with
  | [] => Ret (Some (s, []))
  | l :: ls =>
    obind (dstep msg s l) (fun x =>
    match x with
    | None => Ret None
    | Some (s, c) => omap (option_map (fun '(s, cs) => (s, c ++ cs))) (druns msg s ls)
    end)
  end.
