(** Model of the data writer, which builds whole records beside the sample buffer of a channel group:
    include/mdf/idatawriter.h, mdflib/src/cg4datawriter.cpp, MdfFactory::CreateDataWriter
    (mdffactory.cpp:142-155) for MDF4 and AddSample (mdf4writer.cpp:43-49, writecache.cpp:161-168,
    samplequeue.cpp:449-455).

    Simplifications: a little-endian host; the application uses the layouts of the writer itself and
    writes through SetValue and WriteRawRecord, not through the reference Buffer() returns; a record is
    added with the group the writer was made for. GroupDataWriter (datawriter.cpp) has the same bodies
    and is not used by the factory. *)
From Verif Require Import Base BlockModel StreamModel QueueModel ChannelModel ChannelSpec MetaModel MeasModel ValueModel.
Local Open Scope N_scope.
Local Open Scope list_scope.

(** include/mdf/idatawriter.h:21-28 DataWriterChannelLayout, without the name and the user object. *)
Record layout : Type := mkLay { y_index : nat; y_byte : N; y_bytes : N; y_dtype : dtype }.

Definition is_master_type (t : ctype) : bool := match t with Master => true | _ => false end.

(** cg4datawriter.cpp:15-31: the layouts of all channels but those of type Master. *)
Fixpoint layouts_from (n : nat) (cs : list chan) : list layout :=
  match cs with
  | [] => []
  | c :: r =>
      if is_master_type (ch_type c) then layouts_from (S n) r
      else mkLay n (ch_byte c) (data_bytes c) (ch_dtype c) :: layouts_from (S n) r
  end.
Definition layouts (g : cg) : list layout := layouts_from 0 (chans_of g).

(** The arguments of SetValue<T>: integers of 1, 2, 4 or 8 bytes, float and double by their bits. *)
Inductive tval : Type := TU (k : nat) (n : N) | TS (k : nat) (z : Z) | TF (n : N) | TD (n : N).
Definition size_of (v : tval) : nat := match v with TU k _ => k | TS k _ => k | TF _ => 4%nat | TD _ => 8%nat end.
(** The bytes of the argument in memory. *)
Definition memory (v : tval) : list N :=
  match v with
  | TU k n => le_bytes k n
  | TS k z => le_bytes k (to_u64 z)
  | TF n => le_bytes 4 n
  | TD n => le_bytes 8 n
  end.

(** include/mdf/idatawriter.h:74-110 IDataWriter::SetValue. *)
Definition set_value (y : layout) (v : tval) (buf : list N) : res (list N) :=
  if negb (y_bytes y =? N.of_nat (size_of v)) then Ok buf
  else if N.of_nat (length buf) <? w64 (y_byte y + y_bytes y) then Ok buf
  else
    match y_dtype y with
    | UnsignedLe | SignedLe | FloatLe => lift (wr buf (y_byte y) (memory v))
    | UnsignedBe | SignedBe | FloatBe =>
        match lift (wr buf (y_byte y) (memory v)) with
        | Ok b => lift (wr b (y_byte y) (rev (slice (N.to_nat (y_byte y)) (N.to_nat (y_bytes y)) b)))
        | r => r
        end
    | _ => Ok buf
    end.

(** cg4datawriter.cpp:34-36 Reset. *)
Definition reset (buf : list N) : list N := repeat 0 (length buf).

(** cg4datawriter.cpp:50-62 WriteRawRecord. *)
Definition write_raw (bytes buf : list N) : list N := if (length bytes =? length buf)%nat then bytes else buf.

(** A data writer: the group it was made for and its buffer. *)
Record bwriter : Type := mkBw { b_group : nat; b_buf : list N }.

(** The calls of an application on a data group: those of ValueModel, CreateDataWriter for a group, and
    on data writer number [w] SetValue with its layout number [y], Reset, WriteRawRecord, and
    AddSample of what Commit returns. *)
Inductive bop : Type :=
| BSet (g : nat) (o : setop)
| BSave (g : nat) (ts : N)
| BNew (g : nat)
| BValue (w y : nat) (v : tval)
| BReset (w : nat)
| BRaw (w : nat) (bytes : list N)
| BAdd (w : nat) (ts : N).

Definition put_writer (ws : list bwriter) (w : nat) (b : list N) : list bwriter :=
  match nth_error ws w with
  | Some x => firstn w ws ++ mkBw (b_group x) b :: skipn (S w) ws
  | None => ws
  end.

(** The samples in the order in which they are queued. A new data writer starts with a copy of the
    sample buffer of its group (cg4datawriter.cpp:14); Commit gives the record id of the group and a
    copy of the buffer, without variable length values (cg4datawriter.cpp:64-70), and AddSample sets
    the time (samplequeue.cpp:449-455, the time master as in ValueModel). *)
Fixpoint run_bulk (d2f : N -> N) (gs : list cg) (p : list bop) (bufs : nat -> list N) (ws : list bwriter) : res (list sample) :=
  match p with
  | [] => Ok []
  | BSet k o :: r =>
      match nth_error gs k with
      | None => Fail
      | Some g => bind (run_ops d2f (chans_of g) [o] (bufs k)) (fun b => run_bulk d2f gs r (put_buf bufs k b) ws)
      end
  | BSave k ts :: r =>
      match nth_error gs k with
      | None => Fail
      | Some g => bind (run_bulk d2f gs r bufs ws) (fun l => Ok (sample_of g ts (bufs k) :: l))
      end
  | BNew k :: r =>
      match nth_error gs k with
      | None => Fail
      | Some g => run_bulk d2f gs r bufs (ws ++ [mkBw k (bufs k)])
      end
  | BValue w y v :: r =>
      match nth_error ws w with
      | None => Fail
      | Some x =>
          match nth_error gs (b_group x) with
          | None => Fail
          | Some g =>
              match nth_error (layouts g) y with
              | None => Fail
              | Some lay => bind (set_value lay v (b_buf x)) (fun b => run_bulk d2f gs r bufs (put_writer ws w b))
              end
          end
      end
  | BReset w :: r =>
      match nth_error ws w with
      | None => Fail
      | Some x => run_bulk d2f gs r bufs (put_writer ws w (reset (b_buf x)))
      end
  | BRaw w bytes :: r =>
      match nth_error ws w with
      | None => Fail
      | Some x => run_bulk d2f gs r bufs (put_writer ws w (write_raw bytes (b_buf x)))
      end
  | BAdd w ts :: r =>
      match nth_error ws w with
      | None => Fail
      | Some x =>
          match nth_error gs (b_group x) with
          | None => Fail
          | Some g => bind (run_bulk d2f gs r bufs ws) (fun l => Ok (sample_of g ts (b_buf x) :: l))
          end
      end
  end.

(** All buffers are new (cg4block.cpp:483-489) and there is no data writer. *)
Definition bulk_samples (d2f : N -> N) (gs : list cg) (p : list bop) : res (list sample) := run_bulk d2f gs p (new_bufs gs) [].
