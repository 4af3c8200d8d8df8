(** Model of the decompressing reader ([ReadZipped], src/Stream.cc:501-661) and of the
    block writer ([vfs_write_zipped], src/Vfs.cc:270-300).

    The miniz library is not modelled: [codec] holds the two functions it provides. *)

From Verif Require Import MBase MStream.
Local Open Scope N_scope.
Local Open Scope m_scope.

(** [mz_compress] of a buffer, and [mz_uncompress] of a buffer into a destination of the
    given capacity ([None] = any status other than [MZ_OK]). *)
Record codec := mkCodec { mz_compress : bytes -> bytes; mz_uncompress : bytes -> N -> option bytes }.

(** Vfs.cc:253 *)
Definition zip_block_size : N := 8192.

(** Vfs.cc:270-300.  [mz_compress] is assumed to succeed (the code asserts it).
    [blocks_count] is truncated to 32 bits; [static_cast<size_t>(i) * block_size]. *)
Definition zip_block (c : codec) (data : bytes) (i : nat) : wr unit :=
  let off := N.of_nat i * zip_block_size in
  let src := take (N.min zip_block_size (len data - off)) (drop off data) in
  let cmp := mz_compress c src in
  write_uint (len src) ;;
  write_uint (u32 (len cmp)) ;;
  write_uint zip_block_size ;;
  wr_write cmp.
Definition zip_count (size : N) : N := u32 ((size + zip_block_size - 1) / zip_block_size).
Definition write_zipped (c : codec) (data : bytes) : wr unit :=
  write_uint (u32 (len data)) ;;
  write_uint zip_block_size ;;
  write_uint (zip_count (len data)) ;;
  iterM (zip_block c data) (seq 0 (N.to_nat (zip_count (len data)))).

(** Stream.cc:626-631 *)
Record zblock := mkZB { zb_src : N; zb_cmp : N; zb_blk : N; zb_off : N }.

(** Stream.cc:618-640 *)
Record zstate := mkZ {
  z_stream : rstate;
  z_length : N; z_bsize : N; z_count : N;
  z_blocks : list zblock;
  z_pos : N; z_cur : N;
  z_cache : bytes; z_cidx : N; z_cvalid : bool }.

(** Stream.cc:603-609 *)
Definition zinit_block : rd zblock :=
  let* src := read_uint in
  let* cmp := read_uint in
  let* blk := read_uint in
  let* off := rd_tell in
  rd_seek (Z.of_N cmp) CUR ;;
  ret (mkZB src cmp blk off).

(** Stream.cc:573-615 and 503-505, 664-668: [from_zipped]; [None] = [nullptr]. *)
Definition from_zipped (s : rstate) : outcome (option zstate) :=
  match (rd_seek 0 BEG ;;
         let* l := read_uint in
         let* bs := read_uint in
         let* n := read_uint in
         if (n =? 0) || (bs =? 0) || (l =? 0) then ret None
         else if negb (n =? u32 (2 ^ 32 + u32 (l + bs) - 1) / bs) then ret None
         else
           let* blocks := repM (N.to_nat n) zinit_block in
           ret (Some (l, bs, n, blocks))) s with
  | Ret (None, _) => Ret None
  | Ret (Some (l, bs, n, blocks), s') =>
      Ret (Some (mkZ s' l bs n blocks 0 0 [] 4294967295 false))
  | Throw e => Throw e
  | Undef => Undef
  | Fuel => Fuel
  end.

(** Stream.cc:642-660.  Returns whether the block could be decompressed. *)
Definition cache_block (c : codec) (z : zstate) : outcome (bool * zstate) :=
  let idx := z_cur z in
  match nth_N (z_blocks z) idx with
  | None => Ret (false, z)
  | Some blk =>
      match (rd_seek (sint 64 (zb_off blk)) BEG ;; rd_read (zb_cmp blk)) (z_stream z) with
      | Ret (cmp, s') =>
          let z' := mkZ s' (z_length z) (z_bsize z) (z_count z) (z_blocks z) (z_pos z) (z_cur z)
                        (z_cache z) (z_cidx z) (z_cvalid z) in
          if negb (len cmp =? zb_cmp blk) then Ret (false, z')
          else
            (* [resize] keeps the old contents and zero-fills *)
            let resized := take (zb_src blk) (z_cache z) ++ zeros (zb_src blk - len (z_cache z)) in
            match mz_uncompress c cmp (zb_src blk) with
            | None =>
                (* the destination may have been scribbled over; its contents are not used *)
                Ret (false, mkZ s' (z_length z) (z_bsize z) (z_count z) (z_blocks z) (z_pos z)
                                (z_cur z) resized (z_cidx z) (z_cvalid z))
            | Some out =>
                Ret (true, mkZ s' (z_length z) (z_bsize z) (z_count z) (z_blocks z) (z_pos z)
                               (z_cur z) (out ++ drop (len out) resized) idx true)
            end
      | Throw e => Throw e
      | Undef => Undef
      | Fuel => Fuel
      end
  end.

(** Stream.cc:514-540, the read loop; [acc] holds what was copied so far. *)
Fixpoint zread_loop (fuel : nat) (c : codec) (n : N) (acc : bytes) (z : zstate)
  : outcome (bytes * zstate) :=
  match fuel with
  | O => Fuel
  | S f =>
      if n =? 0 then Ret (acc, z)
      else if z_count z <=? z_cur z then Ret (acc, z)
      else
        match (if negb (z_cvalid z) || negb (z_cidx z =? z_cur z)
               then cache_block c z else Ret (true, z)) with
        | Ret (false, z1) => Ret (acc, z1)
        | Ret (true, z1) =>
            let off := u64 (2 ^ 64 + z_pos z1 - u32 (z_cur z1 * z_bsize z1)) in
            match nth_N (z_blocks z1) (z_cur z1) with
            | None => Undef
            | Some blk =>
                let avail := u64 (2 ^ 64 + zb_src blk - off) in
                let k := N.min n avail in
                if len (z_cache z1) <? off + k then Undef
                else
                  let z2 := mkZ (z_stream z1) (z_length z1) (z_bsize z1) (z_count z1) (z_blocks z1)
                                (z_pos z1 + k)
                                (if k =? avail then u32 (z_cur z1 + 1) else z_cur z1)
                                (z_cache z1) (z_cidx z1) (z_cvalid z1) in
                  zread_loop f c (n - k) (acc ++ take k (drop off (z_cache z1))) z2
            end
        | Throw e => Throw e
        | Undef => Undef
        | Fuel => Fuel
        end
  end.
(** Stream.cc:509-541.  Every iteration copies a byte or advances the block index, so
    [n] + [blocks_count] + 1 iterations suffice. *)
Definition zread (c : codec) (n : N) : M zstate bytes := fun z =>
  zread_loop (S (N.to_nat n + N.to_nat (z_count z))) c n [] z.

(** Stream.cc:543-560 *)
Definition zseek (off : Z) (w : whence) : M zstate unit := fun z =>
  obind (match w with
         | BEG => Ret off
         | CUR => ssize_add (sint 64 (z_pos z)) off
         | END => ssize_add (Z.of_N (z_length z)) off
         end) (fun p =>
  let p := if (p <? 0)%Z then 0%Z else p in
  let p := if z_length z <? Z.to_N p then Z.of_N (z_length z) else p in
  let pos := Z.to_N p in
  Ret (tt, mkZ (z_stream z) (z_length z) (z_bsize z) (z_count z) (z_blocks z) pos
               (if 0 <? z_bsize z then u32 (pos / z_bsize z) else z_cur z)
               (z_cache z) (z_cidx z) (z_cvalid z))).

(** Stream.cc:562-568 *)
Definition ztell : M zstate N := fun z => Ret (z_pos z, z).
Definition zeof : M zstate bool := fun z => Ret (z_length z <=? z_pos z, z).
