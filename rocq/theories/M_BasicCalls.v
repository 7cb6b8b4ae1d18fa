(** plat_linux/utils.go:36-77 call by call.  Elsewhere ReadBasicInfo is one event with one answer (M_LinuxInfo.read_basic_info); here it is the
    sequence of calls it makes, so that what it leaves open can be stated. *)
From Verif Require Import Base M_SgDriver M_Strings M_LinuxInfo.

(** diskfs.Open (opens [path] read-only and reads the partition table; one call here), ioctl, dev.File.ReadAt(b, 0) with len(b), and
    closing the file of the disk, of which there is none in the code *)
Inductive bcall : Type := BOpenFile (path : bytes) | BIoctl (fd op : N) | BReadAt (n : nat) | BCloseFile.

(** utils.go:39-77, internal/direct_mbr/table.go:77-88: the calls made, and the result.  BLKSSZGET, BLKGETSIZE64, HDIO_GETGEO are the
    constants of golang.org/x/sys/unix on 64-bit Linux. *)
Definition basic_run (fd : N) (path : bytes) (a : disk_answers) : list bcall * res basic :=
  match da_open a with
  | Some _ => ([BOpenFile path], Err (EMsg "diskfs.open failed"))
  | None =>
    let asked := [BOpenFile path; BIoctl fd 0x1268; BIoctl fd 0x80081272; BIoctl fd 0x301] in
    match da_geo a with
    | Some _ => (asked, Err (EMsg "HDIO_GETGEO failed"))
    | None =>
      let b style guid mbr := {| ba_style := style; ba_table := da_table a; ba_mbr := mbr; ba_gpt := guid;
                                 ba_total := match da_size a with Some x => to_int64 x | None => 0 end;
                                 ba_sector := match da_ssz a with Some x => x | None => 0 end |} in
      match da_table a with
      | TGpt guid _ => (asked, Ok (b StyleGpt (map lower guid) 0))
      | TMbr _ => (asked ++ [BReadAt 512], Ok (b StyleMbr [] match mbr_read (da_readat a) with Ok x => x | _ => 0 end))
      | TOther => (asked, Ok (b StyleRaw [] 0))
      end
    end
  end.
