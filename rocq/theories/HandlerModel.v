(** * HandlerModel: OnUnpackStream2FileHandler (handler.go) and the files it writes. *)
From Coq Require Import String.
From Verif Require Import Base UtilModel PacketModel DemuxModel.
Open Scope Z_scope.
Local Open Scope list_scope.

(** handler.go:58 the name of the file of a track. *)
Definition file_name (path : string) (s : stream) : res string :=
  m <- media_string (st_media s);;
  Ok (path ++ "." ++ m ++ "." ++ itoa (st_index s) ++ "." ++ codec_string (st_codec s))%string.

(** The files on disk. The flags O_WRONLY|O_CREATE open a file at offset 0 and keep its contents (no O_TRUNC, no O_APPEND); an
    absent file is an empty one. Writing replaces bytes from the offset on; an offset never lies behind the end of the file. *)
Definition disk := string -> list Z.
Definition overwrite (old : list Z) (pos : Z) (d : list Z) : list Z :=
  firstn (Z.to_nat pos) old ++ d ++ skipn (Z.to_nat (pos + zlen d)) old.
Definition disk_set (k : disk) (n : string) (c : list Z) : disk := fun m => if (m =? n)%string then c else k m.

(** handler.go:49-53: the tracks of the embedded logger and the opened files with their offsets. *)
Record file_handler := { fh_tracks : list stream; fh_files : list (string * Z); fh_disk : disk }.
Definition fh_start (k : disk) : file_handler := {| fh_tracks := []; fh_files := []; fh_disk := k |}.

(** handler.go:55-64 OnNewTrack; opening succeeds (an error is a panic). 27-35: the logger adds the track and prints its media type. *)
Definition fh_new_track (path : string) (h : file_handler) (s : stream) : res file_handler :=
  n <- file_name path s;;
  Ok {| fh_tracks := tm_add (fh_tracks h) s; fh_files := fh_files h ++ [(n, 0)]; fh_disk := fh_disk h |}.

(** o.fos[i].Write(d); writing succeeds. *)
Definition fh_write (h : file_handler) (i : Z) (d : list Z) : res file_handler :=
  '(n, pos) <- of_opt (idx (fh_files h) i);;
  fs <- of_opt (upd (fh_files h) i (n, pos + zlen d));;
  Ok {| fh_tracks := fh_tracks h; fh_files := fs; fh_disk := disk_set (fh_disk h) n (overwrite (fh_disk h n) pos d) |}.

(** handler.go:70-88 OnPacket; 41-43: the logger prints the media type. *)
Definition fh_on_packet (h : file_handler) (p : packet) : res (file_handler * packet) :=
  _ <- media_string (pk_media p);;
  if AVMediaTypeVideo =? pk_media p then
    s <- tm_get (fh_tracks h) (pk_index p);;
    '(p1, data) <- avcc_packet_to_annexb s p;;
    h1 <- match pk_key p1 && (PacketTypeAVCC =? pk_type p1), st_params s with
          | true, Some c => fh_write h (pk_index p1) (cd_annexb c)
          | _, _ => Ok h
          end;;
    h2 <- fh_write h1 (pk_index p1) data;;
    Ok (h2, p1)
  else
    h2 <- fh_write h (pk_index p) (pk_data p);;
    Ok (h2, p).

(** The handler attached to a demuxer: it sees the handler events (handler.go:37-39, 45-47: the other two callbacks only print). *)
Definition fh_event (path : string) (h : file_handler) (e : event) : res file_handler :=
  match e with
  | EvNewTrack s => fh_new_track path h s
  | EvPacket p => '(h1, _) <- fh_on_packet h p;; Ok h1
  | _ => Ok h
  end.
Fixpoint fh_session (path : string) (h : file_handler) (l : list event) : res file_handler :=
  match l with [] => Ok h | e :: t => h1 <- fh_event path h e;; fh_session path h1 t end.
