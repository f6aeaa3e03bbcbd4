(** The broker's files as bytes (trade_gate.py:399-400, 440-441, 546): the result file is
    opened with the encoding of the locale, the update file with the option file_encoding.
    MGate.v works on decoded texts.

    Simplifications: what is new in a file is decoded as one chunk (io.TextIOWrapper reads
    8192 bytes at a time); it does not end in the middle of a character; the byte of '\n'
    is not part of another character (as in UTF-8, Latin-1 and GBK); an UnicodeDecodeError is
    a ValueError. *)
From Verif Require Import PyBase PyStr MOrder MAccount MGate.
Open Scope N_scope.

(** ** two codecs *)

(** UTF-8, code points up to 0x10FFFF; the decoder as CPython's: no overlong forms, no
    surrogates *)
Definition utf8_char (c : N) : list N :=
  if c <? 128 then [c]
  else if c <? 2048 then [192 + c / 64; 128 + c mod 64]
  else if c <? 65536 then [224 + c / 4096; 128 + c / 64 mod 64; 128 + c mod 64]
  else [240 + c / 262144; 128 + c / 4096 mod 64; 128 + c / 64 mod 64; 128 + c mod 64].
Definition scalar (c : N) : bool := (c <? 55296) || ((57344 <=? c) && (c <? 1114112)).
Definition cont (b : N) : bool := (128 <=? b) && (b <? 192).
Fixpoint utf8_dec (fuel : nat) (s : list N) : option str :=
  match fuel with
  | O => None
  | S fuel =>
      let more c s' := if scalar c then option_map (cons c) (utf8_dec fuel s') else None in
      match s with
      | [] => Some []
      | a :: s1 =>
          if a <? 128 then more a s1
          else if a <? 192 then None
          else match s1 with
          | b :: s2 =>
              if negb (cont b) then None
              else if a <? 224 then
                let c := (a - 192) * 64 + (b - 128) in if c <? 128 then None else more c s2
              else match s2 with
              | d :: s3 =>
                  if negb (cont d) then None
                  else if a <? 240 then
                    let c := (a - 224) * 4096 + (b - 128) * 64 + (d - 128) in if c <? 2048 then None else more c s3
                  else match s3 with
                  | e :: s4 =>
                      if negb (cont e) then None
                      else if a <? 248 then
                        let c := (a - 240) * 262144 + (b - 128) * 4096 + (d - 128) * 64 + (e - 128) in
                        if c <? 65536 then None else more c s4
                      else None
                  | [] => None
                  end
              | [] => None
              end
          | [] => None
          end
      end
  end.
Definition utf8_decode (s : list N) : option str := utf8_dec (S (length s)) s.
(** Latin-1 *)
Definition latin1_decode (s : list N) : option str := if forallb (fun b => b <? 256) s then Some s else None.

Section Codec.
  (** [dec_r]: the locale's encoding; [dec_u]: file_encoding *)
  Context (ptime f3 f4 : str -> option Z) (go : gopts) (dec_r dec_u : list N -> option str).

  Definition decoded (dec : list N -> option str) (l : list N) : str := match dec l with Some t => t | None => [] end.
  Definition decodable (dec : list N -> option str) (l : list N) : bool := match dec l with Some _ => true | None => false end.

  (** the loops of lines 401-438 and 442-472 from byte [off] on.  The first readline()
      decodes the whole chunk; if that fails the chunk has been taken from the file, so
      tell() is its end and the next readline() is at the end of the file. *)
  Definition read_bytes (dec : list N -> option str) (step : str -> dict str oinfo -> lres) (bytes : list N) (off : nat) (o : dict str oinfo)
    : option exn * nat * dict str oinfo :=
    let ls := lines_of (skipn off bytes) in
    if forallb (decodable dec) ls then read_loop go (fun l => step (decoded dec l)) ls off off o
    else if go_ignore go then (None, length bytes, o) else (Some ValueError, off, o).

  (** trade_gate.py:392-480 [sync_orders], the files of the state holding bytes *)
  Definition sync_bytes (g : gst) : res (list oinfo) * gst :=
    let d := ge_date (gs_env g) in
    match dget d (gs_ufile g), dget d (gs_rfile g) with
    | Some ut, Some rt =>
        let '(x1, roff, o1) := read_bytes dec_r result_line rt (gs_roff g) (gs_orders g) in
        let g1 := set_rread o1 roff g in
        match x1 with
        | Some x => (Err x, g1)
        | None =>
            let '(x2, uoff, o2) := read_bytes dec_u (update_line ptime f3 f4) ut (gs_uoff g1) o1 in
            let g2 := set_uread o2 uoff g1 in
            match x2 with
            | Some x => (Err x, g2)
            | None =>
                match save_orders g2 with
                | (Err x, g3) => (Err x, g3)
                | (Ok _, g3) => (Ok (dvals (gs_orders g3)), g3)
                end
            end
        end
    | _, _ => (Err FileNotFoundError, g)
    end.
End Codec.
