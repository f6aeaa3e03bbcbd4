(** The order and cancel files as bytes (trade_gate.py:287-302, 546): they are opened with the
    option file_encoding and appended to.  MGate.v works on texts.

    Simplifications: an encoding gives every character its bytes by itself (as UTF-8, Latin-1,
    ASCII and GBK; not UTF-16, whose first bytes are a mark); an UnicodeEncodeError is a
    ValueError.  fp.write encodes the whole text before anything of it is buffered, so a text
    with a character the encoding lacks leaves the file alone. *)
From Verif Require Import PyBase PyStr MOrder MAccount MGate MCodec.
Open Scope N_scope.

(** the bytes of one character; None: the encoding lacks it *)
Definition encoder := N -> option (list N).
Definition utf8_enc : encoder := fun c => if scalar c then Some (utf8_char c) else None.
Definition latin1_enc : encoder := fun c => if c <? 256 then Some [c] else None.
Definition ascii_enc : encoder := fun c => if c <? 128 then Some [c] else None.
Definition ascii_decode (s : list N) : option str := if forallb (fun b => b <? 128) s then Some s else None.

(** [str.encode] with errors="strict" *)
Fixpoint enc_text (e : encoder) (t : str) : option (list N) :=
  match t with
  | [] => Some []
  | c :: t' => match e c, enc_text e t' with Some x, Some y => Some (x ++ y) | _, _ => None end
  end.

Section Encode.
  Context (e : encoder) (go : gopts).

  (** lines 287-302 [_write]; [WTorn]: the disk takes the first n bytes *)
  Definition write_bytes (header line : str) (old : list N) (w : wout) : res unit * list N :=
    let text := (match old with [] => header ++ go_eol go | _ => [] end) ++ line in
    match w with
    | WFail x => (Err x, old)
    | WDone => match enc_text e text with Some b => (Ok tt, old ++ b) | None => (Err ValueError, old) end
    | WTorn n x => match enc_text e text with Some b => (Err x, old ++ firstn n b) | None => (Err ValueError, old) end
    end.

  (** lines 238-278 [order], with the order file of the state holding bytes *)
  Definition order_bytes (o : order) (g : gst) : res unit * gst :=
    match go_acct go with
    | [] => (Err InvalidParam, g)
    | _ =>
      if negb (go_stock go) then (Err InvalidParam, g)
      else match o_side o with
      | Short => (Err InvalidParam, g)
      | Long =>
        match encode (o_code o) with
        | Err x => (Err x, g)
        | Ok sym =>
          let v := gs_env g in
          let d := ge_date v in
          let line := join_with COMMA (order_fields go (ge_now v) o sym) ++ go_eol go in
          let '(r, b) := write_bytes order_header line (text_of d (gs_ofile g)) (ge_write v) in
          let g1 := set_ofile (dset d b (gs_ofile g)) g in
          match r with
          | Err x => (Err x, g1)
          | Ok _ => save_orders (set_gorders (dset (o_id o) (json o) (gs_orders g)) g1)
          end
        end
      end
    end.

  (** lines 280-285 [cancel_order], with the cancel file of the state holding bytes *)
  Definition cancel_bytes (id : str) (g : gst) : res unit * gst :=
    let v := gs_env g in
    let d := ge_date v in
    let line := join_with COMMA [fmt_stamp (ge_now v); id] ++ go_eol go in
    let '(r, b) := write_bytes cancel_header line (text_of d (gs_cfile g)) (ge_write v) in
    (r, set_cfile (dset d b (gs_cfile g)) g).
End Encode.

(** calls of [_write] for one file, each by a process with its own file_encoding *)
Definition write_all (go : gopts) (header : str) (calls : list (encoder * str)) (file : list N) : list N :=
  fold_left (fun f c => snd (write_bytes (fst c) go header (snd c) f WDone)) calls file.
