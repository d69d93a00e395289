(** * Streams: streaming encryption and decryption (python/src/keyczar/keys.py:1023-1306,
    keyczar.py:342-366 and 537-562) and the streaming Base64 codecs
    (python/src/keyczar/util.py:504-846). *)
From Coq Require Import Strings.String.
From Coq Require Import List ZArith NArith Bool.
From Coq.Init Require Import Byte.
From Verif Require Import PyBase Base64 Util Aes KeyInfo SymKeys AsymKeys Keys KeyData Keyczar.
Import ListNotations.
Local Open Scope Z_scope.

(** ** The Base64 encoder and the stream writer around it *)

(** [BufferedIncrementalBase64WSEncoder._buffer_encode], util.py:512-537. *)
Definition buffer_encode (input : str) (final : bool) : str * Z :=
  let n := if final then len input else 3 * (len input / 3) in
  (Base64WSEncode (slice_to input n), n).

(** [BufferedIncrementalBase64WSEncoder.encode], util.py:539-557, with
    [codecs.BufferedIncrementalEncoder.encode]: the text and the new buffer.  The length it
    also returns is ignored by [codecs.StreamWriter.write]. *)
Definition encoder_encode (buffer input : str) : str * str :=
  let data := buffer ++ input in
  let (out, n) := buffer_encode data false in
  (out, slice_from data n).

(** [BufferedIncrementalBase64WSEncoder.flush], util.py:559-570. *)
Definition encoder_flush (buffer : str) : str * str :=
  match buffer with
  | [] => ([], [])
  | _ => (fst (buffer_encode buffer true), [])
  end.

(** [IncrementalBase64WSStreamWriter], util.py:572-631: the encoder's buffer and what the
    underlying stream has received.  Flushing the underlying stream does not change the
    latter. *)
Record b64writer := MkBw { bw_buffer : str; bw_out : str }.

(** [IncrementalBase64WSStreamWriter(stream)], util.py:581-603. *)
Definition bw_new : b64writer := MkBw [] [].

(** [codecs.StreamWriter.write] with [encode], util.py:619-631. *)
Definition bw_write (w : b64writer) (data : str) : b64writer :=
  let (t, b) := encoder_encode (bw_buffer w) data in MkBw b (bw_out w ++ t).

(** [flush], util.py:610-617. *)
Definition bw_flush (w : b64writer) : b64writer :=
  let (t, b) := encoder_flush (bw_buffer w) in
  MkBw b (match t with [] => bw_out w | _ => bw_out w ++ t end).

(** [close], util.py:605-608: [codecs.StreamWriter] has no [close], and [super()] does not
    delegate to the stream. *)
Definition bw_close (w : b64writer) : b64writer * res unit := (bw_flush w, Raise AttributeError).

(** ** Where an encrypting stream writes: a plain stream, or one behind the Base64 writer. *)
Inductive sink := RawSink (out : str) | B64Sink (w : b64writer).

(** What the underlying stream has received. *)
Definition sink_out (s : sink) : str := match s with RawSink o => o | B64Sink w => bw_out w end.

(** [output_stream.write(d)] *)
Definition sink_write (s : sink) (d : str) : sink :=
  match s with RawSink o => RawSink (o ++ d) | B64Sink w => B64Sink (bw_write w d) end.

(** [output_stream.flush()] *)
Definition sink_flush (s : sink) : sink :=
  match s with RawSink o => RawSink o | B64Sink w => B64Sink (bw_flush w) end.

(** ** EncryptingStreamWriter *)

(** The fields of [EncryptingStreamWriter], keys.py:1029-1051; of the key only its methods
    [_Pad] and [_NoPadBufferSize] are used after construction, and they do not depend on it. *)
Record esw := MkEsw {
  ew_cipher : cipher; ew_hmac : hmacstream; ew_data : str; ew_closed : bool; ew_sink : sink }.

(** [EncryptingStreamWriter(key, output_stream)], keys.py:1029-1051, with the IV drawn from
    [r].  Only AES keys have [hmac_key]. *)
Definition EncryptingStreamWriter (k : key) (r : tape) (s : sink) : res esw :=
  match k with
  | KAes a =>
      let* h := CreateStreamable (ak_hmac a) in
      let iv_bytes := RandBytes r block_size in
      let* kb := aes_bytes a in
      let* c := AES_new kb iv_bytes in
      let* hdr := aes_header a in
      Ok (MkEsw c (hs_update h (hdr ++ iv_bytes)) [] false (sink_write s (hdr ++ iv_bytes)))
  | _ => Raise AttributeError
  end.

(** [Encrypter.CreateEncryptingStreamWriter], keyczar.py:342-366, onto an empty stream; [b64]
    tells whether [encoder] is the default or None. *)
Definition CreateEncryptingStreamWriter (ks : keyset) (r : tape) (b64 : bool) : res esw :=
  let* k := primary_key ks in
  EncryptingStreamWriter k r (if b64 then B64Sink bw_new else RawSink []).

(** [__WriteEncrypted], keys.py:1091-1110. *)
Definition WriteEncrypted (w : esw) (data : str) (pad : bool) : esw * res unit :=
  let data := if pad then Pad data else data in
  match cipher_encrypt (ew_cipher w) data with
  | Raise e => (w, Raise e)
  | Ok (encrypted_bytes, c) =>
      (MkEsw c (hs_update (ew_hmac w) encrypted_bytes) (ew_data w) (ew_closed w)
             (sink_write (ew_sink w) encrypted_bytes), Ok tt)
  end.

Definition set_data (w : esw) (d : str) : esw :=
  MkEsw (ew_cipher w) (ew_hmac w) d (ew_closed w) (ew_sink w).

(** [write], keys.py:1053-1069. *)
Definition ew_write (w : esw) (data : str) : esw * res unit :=
  if ew_closed w then (w, Raise ValueError)
  else
    let w := set_data w (ew_data w ++ data) in
    let n := NoPadBufferSize (len (ew_data w)) in
    if n <=? len (ew_data w) then
      match WriteEncrypted w (slice_to (ew_data w) n) false with
      | (w', Ok _) => (set_data w' (slice_from (ew_data w') n), Ok tt)
      | (w', Raise e) => (w', Raise e)
      end
    else (set_data w (slice_from (ew_data w) 0), Ok tt).

(** [flush], keys.py:1071-1080. *)
Definition ew_flush (w : esw) : esw * res unit :=
  if ew_closed w then (w, Raise ValueError)
  else
    match WriteEncrypted w (ew_data w) true with
    | (w', Ok _) =>
        let s := sink_write (ew_sink w') (hs_sign (ew_hmac w')) in
        (MkEsw (ew_cipher w') (ew_hmac w') (ew_data w') (ew_closed w') (sink_flush s), Ok tt)
    | (w', Raise e) => (w', Raise e)
    end.

(** [close], keys.py:1082-1089. *)
Definition ew_close (w : esw) : esw * res unit :=
  if ew_closed w then (w, Raise ValueError)
  else (MkEsw (ew_cipher w) (ew_hmac w) (ew_data w) true (ew_sink w), Ok tt).

(** What the caller can see of the stream written to. *)
Definition ew_out (w : esw) : str := sink_out (ew_sink w).

(** The calls a user can make. *)
Inductive wcall := CWrite (d : str) | CFlush | CClose.
Definition wstep (w : esw) (c : wcall) : esw * res unit :=
  match c with CWrite d => ew_write w d | CFlush => ew_flush w | CClose => ew_close w end.

(** Successive calls, the caller going on after an exception: the final state and the outcomes. *)
Fixpoint wrun (w : esw) (cs : list wcall) : esw * list (res unit) :=
  match cs with
  | [] => (w, [])
  | c :: cs' => let (w1, r) := wstep w c in let (w2, rs) := wrun w1 cs' in (w2, r :: rs)
  end.

(** ** Input streams *)

(** [stream.read(size)]: a byte string ('' at the end of the stream), None when there is no
    data yet, or an exception; and the stream afterwards. *)
Definition source (St : Type) : Type := St -> Z -> res (option str) * St.

(** ** The Base64 decoder and the stream reader around it *)

(** [BufferedIncrementalBase64WSDecoder._buffer_decode], util.py:641-664. *)
Definition buffer_decode (input : str) (final : bool) : res (str * Z) :=
  let n := if final then len input else 4 * (len input / 4) in
  let* d := Base64WSDecode (slice_to input n) in Ok (d, n).

(** [BufferedIncrementalBase64WSDecoder.decode], util.py:666-684, with
    [codecs.BufferedIncrementalDecoder.decode]: the bytes and the new buffer. *)
Definition decoder_decode (buffer input : str) : res (str * str) :=
  let data := buffer ++ input in
  let* (d, n) := buffer_decode data false in
  Ok (d, slice_from data n).

(** [BufferedIncrementalBase64WSDecoder.flush], util.py:686-697. *)
Definition decoder_flush (buffer : str) : res (str * str) :=
  match buffer with
  | [] => Ok ([], [])
  | _ => let* (d, _) := buffer_decode buffer true in Ok (d, [])
  end.

(** [IncrementalBase64WSStreamReader], util.py:699-731: the characters decoded and not yet
    delivered, the decoder's buffer, and the underlying stream.  [decode] consumes all its
    input, so [bytebuffer] stays empty; [linebuffer] is None as [readline] is not modelled. *)
Record b64reader (St : Type) := MkBr { br_chars : str; br_buffer : str; br_src : St }.
Arguments MkBr {St}. Arguments br_chars {St}. Arguments br_buffer {St}. Arguments br_src {St}.

(** [IncrementalBase64WSStreamReader(stream)], util.py:708-731. *)
Definition br_new {St} (s : St) : b64reader St := MkBr [] [] s.

(** The test at the top of the loop of [read], util.py:774-783. *)
Definition br_satisfied (chars size : Z) (charbuffer : str) : bool :=
  if chars <? 0 then
    if size <? 0 then negb (len charbuffer =? 0) else size <=? len charbuffer
  else chars <=? len charbuffer.

(** The loop of [read], util.py:772-813: the last [newdata].  [fuel] bounds its iterations.
    A stream that signals "no data" with BlockingIOError is treated as one returning None. *)
Fixpoint br_loop {St} (rd : source St) (fuel : nat) (r : b64reader St) (size chars : Z) (newdata : option str)
    : b64reader St * res (option str) :=
  if br_satisfied chars size (br_chars r) then (r, Ok newdata)
  else
    match fuel with
    | O => (r, Raise Diverge)
    | S fuel =>
        let (x, s) := rd (br_src r) (if size <? 0 then -1 else size) in
        let r := MkBr (br_chars r) (br_buffer r) s in
        match x with
        | Raise e => (r, Raise e)
        | Ok None => br_loop rd fuel r size chars None
        | Ok (Some data) =>
            match decoder_decode (br_buffer r) data with
            | Raise e => (r, Raise e)
            | Ok (newchars, b) =>
                let r := MkBr (br_chars r ++ newchars) b s in
                match data with
                | [] => (r, Ok (Some []))
                | _ => br_loop rd fuel r size chars (Some data)
                end
            end
        end
    end.

(** [read(size, chars)], util.py:732-832; [firstline] only matters for UnicodeDecodeError, which
    [decode] does not raise. *)
Definition br_read {St} (rd : source St) (fuel : nat) (r : b64reader St) (size chars : Z)
    : b64reader St * res (option str) :=
  match br_loop rd fuel r size chars (Some []) with
  | (r, Raise e) => (r, Raise e)
  | (r, Ok newdata) =>
      let result := if chars <? 0 then br_chars r else slice_to (br_chars r) chars in
      let rest := if chars <? 0 then [] else slice_from (br_chars r) chars in
      let r := MkBr rest (br_buffer r) (br_src r) in
      match result, newdata with
      | [], None => (r, Ok None)
      | [], Some [] =>
          if chars =? 0 then (r, Ok (Some []))
          else
            match decoder_flush (br_buffer r) with
            | Raise e => (r, Raise e)
            | Ok (d, b) => (MkBr (br_chars r) b (br_src r), Ok (Some d))
            end
      | _, _ => (r, Ok (Some result))
      end
  end.

(** The Base64 reader as an input stream, [stream.read(size)]. *)
Definition b64_source {St} (rd : source St) (fuel : nat) : source (b64reader St) :=
  fun r size => let (r', x) := br_read rd fuel r size (-1) in (x, r').

(** ** DecryptingStreamReader *)

(** The fields of [DecryptingStreamReader], keys.py:1123-1146, other than the input stream.
    [buffer_size] is left out: it is stored and adjusted (keys.py:1284-1285) and never used.
    [dr_hmac] is None until [__hmac_stream] is assigned. *)
Record dsr := MkDsr {
  dr_ks : keyset; dr_key : option key; dr_hmac : option hmacstream; dr_cipher : option cipher;
  dr_enc : str; dr_dec : str; dr_closed : bool }.

(** [Crypter.CreateDecryptingStreamReader], keyczar.py:537-562; the stream read from is given
    to each call below. *)
Definition CreateDecryptingStreamReader (ks : keyset) : dsr := MkDsr ks None None None [] [] false.

Definition set_key (d : dsr) (k : option key) : dsr :=
  MkDsr (dr_ks d) k (dr_hmac d) (dr_cipher d) (dr_enc d) (dr_dec d) (dr_closed d).
Definition set_hmac (d : dsr) (h : option hmacstream) : dsr :=
  MkDsr (dr_ks d) (dr_key d) h (dr_cipher d) (dr_enc d) (dr_dec d) (dr_closed d).
Definition set_cipher (d : dsr) (c : option cipher) : dsr :=
  MkDsr (dr_ks d) (dr_key d) (dr_hmac d) c (dr_enc d) (dr_dec d) (dr_closed d).
Definition set_enc (d : dsr) (b : str) : dsr :=
  MkDsr (dr_ks d) (dr_key d) (dr_hmac d) (dr_cipher d) b (dr_dec d) (dr_closed d).
Definition set_dec (d : dsr) (b : str) : dsr :=
  MkDsr (dr_ks d) (dr_key d) (dr_hmac d) (dr_cipher d) (dr_enc d) b (dr_closed d).

(** [__ReadBytes], keys.py:1243-1261: the bytes and whether more may come.  [fuel] bounds the
    iterations of its loop; [result] is what was read so far. *)
Fixpoint ReadBytes {St} (rd : source St) (fuel : nat) (s : St) (size : Z) (block : bool) (result : str)
    : res (str * bool) * St :=
  match fuel with
  | O => (Raise Diverge, s)
  | S fuel =>
      let (x, s) := rd s size in
      match x with
      | Raise e => (Raise e, s)
      | Ok (Some []) => (Ok (result, false), s)
      | Ok (Some read_bytes) =>
          let result := result ++ read_bytes in
          if len result <? size then ReadBytes rd fuel s size block result else (Ok (result, true), s)
      | Ok None =>
          if negb block then (Ok (result, true), s)
          else if len result <? size then ReadBytes rd fuel s size block result else (Ok (result, true), s)
      end
  end.

(** [key.hmac_key] *)
Definition key_hmac_key (k : key) : res hmackey :=
  match k with KAes a => Ok (ak_hmac a) | _ => Raise AttributeError end.

(** [__CreateKey], keys.py:1263-1287, when there is no key yet. *)
Definition dr_CreateKey {St} (rd : source St) (fuel : nat) (d : dsr) (s : St) : res bool * (dsr * St) :=
  let (x, s) := ReadBytes rd fuel s (HEADER_SIZE - len (dr_enc d)) true [] in
  match x with
  | Raise e => (Raise e, (d, s))
  | Ok (read_bytes, avail) =>
      let d := set_enc d (dr_enc d ++ read_bytes) in
      if HEADER_SIZE <=? len (dr_enc d) then
        let hdr_bytes := slice_to (dr_enc d) HEADER_SIZE in
        let d := set_enc d (slice_from (dr_enc d) HEADER_SIZE) in
        match ParseHeader (dr_ks d) hdr_bytes with
        | Raise e => (Raise e, (d, s))
        | Ok k =>
            let d := set_key d (Some k) in
            match (let* hk := key_hmac_key k in CreateStreamable hk) with
            | Raise e => (Raise e, (d, s))
            | Ok h => (Ok avail, (set_hmac d (Some (hs_update h hdr_bytes)), s))
            end
        end
      else (Ok avail, (d, s))
  end.

(** [__CreateCipher], keys.py:1289-1305, when there is a key and no cipher yet.  Keys other
    than AES keys have no [block_size]. *)
Definition dr_CreateCipher {St} (rd : source St) (fuel : nat) (k : key) (d : dsr) (s : St) : res bool * (dsr * St) :=
  match k with
  | KAes a =>
      let (x, s) := ReadBytes rd fuel s (block_size - len (dr_enc d)) true [] in
      match x with
      | Raise e => (Raise e, (d, s))
      | Ok (read_bytes, avail) =>
          let d := set_enc d (dr_enc d ++ read_bytes) in
          if block_size <=? len (dr_enc d) then
            let iv_bytes := slice_to (dr_enc d) block_size in
            let d := set_enc d (slice_from (dr_enc d) block_size) in
            match dr_hmac d with
            | None => (Raise AttributeError, (d, s))
            | Some h =>
                let d := set_hmac d (Some (hs_update h iv_bytes)) in
                match (let* kb := aes_bytes a in AES_new kb iv_bytes) with
                | Raise e => (Raise e, (d, s))
                | Ok c => (Ok avail, (set_cipher d (Some c), s))
                end
            end
          else (Ok avail, (d, s))
      end
  | _ => (Raise AttributeError, (d, s))
  end.

(** The loop of [read] that waits for data to decrypt, keys.py:1174-1198: the data and whether
    more may come.  [fuel] bounds its iterations, [fuel'] those of the loop inside. *)
Fixpoint dr_fill {St} (rd : source St) (fuel' fuel : nat) (d : dsr) (s : St) : res (str * bool) * (dsr * St) :=
  match fuel with
  | O => (Raise Diverge, (d, s))
  | S fuel =>
      let (x, s) := ReadBytes rd fuel' s block_size false [] in
      match x with
      | Raise e => (Raise e, (d, s))
      | Ok (read_bytes, avail) =>
          let d := set_enc d (dr_enc d ++ read_bytes) in
          let reserved_data_len := if avail then HLEN + block_size else HLEN in
          let available_data := slice_to (dr_enc d) (- reserved_data_len) in
          let no_decrypt_len := if avail then len available_data mod block_size else 0 in
          let data_to_decrypt :=
            if no_decrypt_len =? 0 then available_data else slice_to available_data (- no_decrypt_len) in
          if avail && (len data_to_decrypt =? 0) then dr_fill rd fuel' fuel d s
          else (Ok (data_to_decrypt, avail), (d, s))
      end
  end.

(** Decrypting what was found, keys.py:1200-1216.  Here there are a key and a cipher, so the
    key is an AES key and there is an [__hmac_stream]. *)
Definition dr_consume (h : hmacstream) (c : cipher) (d : dsr) (data_to_decrypt : str) (avail : bool)
    : res unit * dsr :=
  let h := hs_update h data_to_decrypt in
  let d := set_enc (set_hmac d (Some h)) (slice_from (dr_enc d) (len data_to_decrypt)) in
  match cipher_decrypt c data_to_decrypt with
  | Raise e => (Raise e, d)
  | Ok (decrypted_data, c) =>
      let d := set_cipher d (Some c) in
      if avail then (Ok tt, set_dec d (dr_dec d ++ decrypted_data))
      else if negb (len (dr_enc d) =? HLEN) then (Raise (ShortCiphertextError (len (dr_enc d))), d)
      else
        let current_sig_bytes := hs_sign h in
        let msg_sig_bytes := dr_enc d in
        let d := set_enc d [] in
        if negb (VerifySignedData current_sig_bytes msg_sig_bytes) then (Raise InvalidSignatureError, d)
        else
          match UnPad decrypted_data with
          | Raise e => (Raise e, d)
          | Ok p => (Ok tt, set_dec d (dr_dec d ++ p))
          end
  end.

(** The part of [read] after the cipher exists, keys.py:1173-1216. *)
Definition dr_body {St} (rd : source St) (fuel : nat) (d : dsr) (s : St) : res bool * (dsr * St) :=
  match dr_fill rd fuel fuel d s with
  | (Raise e, ds) => (Raise e, ds)
  | (Ok (data_to_decrypt, avail), (d, s)) =>
      if len data_to_decrypt =? 0 then (Ok avail, (d, s))
      else
        match dr_hmac d, dr_cipher d with
        | Some h, Some c =>
            match dr_consume h c d data_to_decrypt avail with
            | (Raise e, d) => (Raise e, (d, s))
            | (Ok _, d) => (Ok avail, (d, s))
            end
        | _, _ => (Raise AttributeError, (d, s))
        end
  end.

(** The end of [read], keys.py:1218-1228. *)
Definition dr_deliver (d : dsr) (chars : Z) (avail : bool) : option str * dsr :=
  let (result, rest) :=
    if chars <? 0 then (dr_dec d, []) else (slice_to (dr_dec d) chars, slice_from (dr_dec d) chars) in
  (match result with [] => if avail then None else Some [] | _ => Some result end, set_dec d rest).

(** [read(chars)], keys.py:1148-1228. *)
Definition dr_read {St} (rd : source St) (fuel : nat) (d : dsr) (s : St) (chars : Z)
    : res (option str) * (dsr * St) :=
  if dr_closed d then (Raise ValueError, (d, s))
  else
    match (match dr_key d with Some _ => (Ok true, (d, s)) | None => dr_CreateKey rd fuel d s end) with
    | (Raise e, ds) => (Raise e, ds)
    | (Ok avail, (d, s)) =>
        match (match avail, dr_key d, dr_cipher d with
               | true, Some k, None => dr_CreateCipher rd fuel k d s
               | _, _, _ => (Ok avail, (d, s))
               end) with
        | (Raise e, ds) => (Raise e, ds)
        | (Ok avail, (d, s)) =>
            match (match avail, dr_key d, dr_cipher d with
                   | true, Some _, Some _ => dr_body rd fuel d s
                   | _, _, _ => (Ok avail, (d, s))
                   end) with
            | (Raise e, ds) => (Raise e, ds)
            | (Ok avail, (d, s)) =>
                let (x, d) := dr_deliver d chars avail in (Ok x, (d, s))
            end
        end
    end.

(** [close], keys.py:1230-1236. *)
Definition dr_close (d : dsr) : dsr :=
  MkDsr (dr_ks d) (dr_key d) (dr_hmac d) (dr_cipher d) (dr_enc d) (dr_dec d) true.

(** Successive reads, the caller going on after an exception: what each returned. *)
Fixpoint dr_reads {St} (rd : source St) (fuel : nat) (d : dsr) (s : St) (cs : list Z) : list (res (option str)) :=
  match cs with
  | [] => []
  | c :: cs' => let (x, ds) := dr_read rd fuel d s c in x :: dr_reads rd fuel (fst ds) (snd ds) cs'
  end.

(** The same for the Base64 reader. *)
Fixpoint br_reads {St} (rd : source St) (fuel : nat) (r : b64reader St) (cs : list (Z * Z)) : list (res (option str)) :=
  match cs with
  | [] => []
  | (size, chars) :: cs' => let (r', x) := br_read rd fuel r size chars in x :: br_reads rd fuel r' cs'
  end.

(** ** A file or socket with a schedule (an environment, not code of the repository): each read consumes one
    step of the schedule; [None] is "no data yet", [Some n] delivers at most [n+1] bytes.  After
    the schedule every read is complete. *)
Record channel := MkChan { ch_plan : list (option nat); ch_rest : str }.

Definition chan_take (c : channel) (plan : list (option nat)) (n : nat) : res (option str) * channel :=
  (Ok (Some (firstn n (ch_rest c))), MkChan plan (skipn n (ch_rest c))).

Definition chan_read : source channel := fun c size =>
  let want := if size <? 0 then length (ch_rest c) else Z.to_nat size in
  if size =? 0 then (Ok (Some []), c)
  else
    match ch_plan c with
    | [] => chan_take c [] want
    | None :: plan => (Ok None, MkChan plan (ch_rest c))
    | Some n :: plan => chan_take c plan (Nat.min want (S n))
    end.
