{
 "claims": [
  {
   "property": "C01",
   "status": "proved",
   "theorems": [
    "C01_ReadSector"
   ],
   "note": ""
  },
  {
   "property": "C02",
   "status": "proved",
   "theorems": [
    "C02_WriteSector"
   ],
   "note": ""
  },
  {
   "property": "C03",
   "status": "proved",
   "theorems": [
    "C03_Swizzle"
   ],
   "note": ""
  },
  {
   "property": "C04",
   "status": "proved",
   "theorems": [
    "C04_tables_inverse"
   ],
   "note": ""
  },
  {
   "property": "C05",
   "status": "proved",
   "theorems": [
    "C05_open_writeback",
    "C05_registered_factories"
   ],
   "note": ""
  },
  {
   "property": "C06",
   "status": "proved",
   "theorems": [
    "C06_reorder_there_and_back"
   ],
   "note": ""
  },
  {
   "property": "C07",
   "status": "proved",
   "theorems": [
    "C07_OpenImage_first_match"
   ],
   "note": ""
  },
  {
   "property": "C08",
   "status": "proved",
   "theorems": [
    "C08_OpenImage_gates",
    "C08_OpenImage_refusals"
   ],
   "note": ""
  },
  {
   "property": "C09",
   "status": "proved",
   "theorems": [
    "C09_UnmarshalBlock",
    "C09_MarshalBlock"
   ],
   "note": ""
  },
  {
   "property": "C10",
   "status": "proved",
   "theorems": [
    "C10_OrderFromFilename"
   ],
   "note": ""
  },
  {
   "property": "C11",
   "status": "proved",
   "theorems": [
    "C11_VTOC_codec"
   ],
   "note": ""
  },
  {
   "property": "C12",
   "status": "proved",
   "theorems": [
    "C12_FileDesc_codec",
    "C12_CatalogSector_codec"
   ],
   "note": "FileDesc.FromBytes panics on other lengths (its doc comment says so); only CatalogSector.FromSector calls it, with 35 bytes."
  },
  {
   "property": "C13",
   "status": "proved",
   "theorems": [
    "C13_TrackSectorList_codec"
   ],
   "note": ""
  },
  {
   "property": "C14",
   "status": "proved",
   "theorems": [
    "C14_VolumeDirectoryKeyBlock_codec",
    "C14_VolumeDirectoryBlock_codec"
   ],
   "note": ""
  },
  {
   "property": "C15",
   "status": "proved",
   "theorems": [
    "C15_SubdirectoryKeyBlock_codec",
    "C15_SubdirectoryBlock_codec"
   ],
   "note": ""
  },
  {
   "property": "C16",
   "status": "proved",
   "theorems": [
    "C16_catalog"
   ],
   "note": ""
  },
  {
   "property": "C17",
   "status": "partial",
   "theorems": [
    "C17_cyclic_catalog_refuted",
    "C17_ReadCatalog_partial"
   ],
   "note": "False as stated: a catalog chain that revisits a sector loops forever (proved on a 143360-byte image, including SeemsToMatch). Proved: it diverges exactly on those images, and returns within 561 rounds on all others."
  },
  {
   "property": "C18",
   "status": "proved",
   "theorems": [
    "C18_Contents"
   ],
   "note": ""
  },
  {
   "property": "C19",
   "status": "proved",
   "theorems": [
    "C19_GetFile",
    "C19_missing"
   ],
   "note": ""
  },
  {
   "property": "C20",
   "status": "partial",
   "theorems": [
    "C20_GetFile_panics_refuted",
    "C20_GetFile_panics_partial"
   ],
   "note": "False as stated: an all-zero text body or a length header beyond the buffer panics (proved). The exact set of panicking files is proved."
  },
  {
   "property": "C21",
   "status": "proved",
   "theorems": [
    "C21_names"
   ],
   "note": ""
  },
  {
   "property": "C22",
   "status": "proved",
   "theorems": [
    "C22_Validate_IsFree_Default"
   ],
   "note": ""
  },
  {
   "property": "C23",
   "status": "proved",
   "theorems": [
    "C23_operators_read_only"
   ],
   "note": "Catalog and GetFile of both packages take the image bytes and return no image in the model: their Go code has no assignment to the image."
  },
  {
   "property": "C24",
   "status": "proved",
   "theorems": [
    "C24_sector_map_persists"
   ],
   "note": ""
  },
  {
   "property": "C25",
   "status": "proved",
   "theorems": [
    "C25_Verify"
   ],
   "note": ""
  },
  {
   "property": "C26",
   "status": "proved",
   "theorems": [
    "C26_write_then_read"
   ],
   "note": ""
  },
  {
   "property": "C27",
   "status": "proved",
   "theorems": [
    "C27_write_frame"
   ],
   "note": ""
  },
  {
   "property": "C28",
   "status": "proved",
   "theorems": [
    "C28_write_errors"
   ],
   "note": ""
  },
  {
   "property": "C29",
   "status": "proved",
   "theorems": [
    "C29_space"
   ],
   "note": ""
  },
  {
   "property": "C30",
   "status": "proved",
   "theorems": [
    "C30_Delete"
   ],
   "note": ""
  },
  {
   "property": "C31",
   "status": "partial",
   "theorems": [
    "C31_empty_put_panics_refuted",
    "C31_no_panic_partial",
    "C31_empty_put_panics",
    "C31_empty_put_refused"
   ],
   "note": "False as stated: putting empty contents panics whenever other contents would be stored, and is refused otherwise unless the disk is full (proved). For non-empty contents no call on a reached operator panics (proved)."
  },
  {
   "property": "C32",
   "status": "proved",
   "theorems": [
    "C32_FirstFreeFile"
   ],
   "note": ""
  },
  {
   "property": "C33",
   "status": "proved",
   "theorems": [
    "C33_encode_decode"
   ],
   "note": ""
  },
  {
   "property": "C34",
   "status": "partial",
   "theorems": [
    "C34_lossy_names_refuted",
    "C34_accepted_names_partial",
    "C34_accepted"
   ],
   "note": "False as stated: A.BC is accepted and decodes to ABC (proved). Proved: an accepted name comes back in upper case exactly if it consists of letters and digits; of an ASCII name the letters and digits come back; exactly which ASCII names are accepted."
  },
  {
   "property": "C35",
   "status": "proved",
   "theorems": [
    "C35_symbol_table_roundtrip"
   ],
   "note": ""
  },
  {
   "property": "C36",
   "status": "proved",
   "theorems": [
    "C36_AddSymbol_map",
    "C36_C37_histories"
   ],
   "note": ""
  },
  {
   "property": "C37",
   "status": "proved",
   "theorems": [
    "C37_DeleteSymbol_map",
    "C36_C37_histories"
   ],
   "note": ""
  },
  {
   "property": "C38",
   "status": "partial",
   "theorems": [
    "C38_unreadable_after_delete_refuted",
    "C38_add_partial",
    "C38_delete_partial",
    "C38_write_read",
    "C38_delete_exact",
    "C38_add_exact",
    "C38_delete_chained",
    "C38_move_chained"
   ],
   "note": "False as stated: a well-formed readable table and a history from the blank table are exhibited whose delete leaves a table that is written without error and rejected on reading. Proved: a written table reads back exactly if its links are sound; exactly which deletions, additions and moves make a readable table unreadable, for all readable tables (merging and circular chains included); what this comes to for properly chained tables (the first entry, linked to from behind an unused entry)."
  },
  {
   "property": "C39",
   "status": "proved",
   "theorems": [
    "C39_FileForName",
    "C39_shown_symbols"
   ],
   "note": ""
  },
  {
   "property": "C40",
   "status": "proved",
   "theorems": [
    "C40_compound_names"
   ],
   "note": ""
  },
  {
   "property": "C41",
   "status": "proved",
   "theorems": [
    "C41_refines_store"
   ],
   "note": ""
  },
  {
   "property": "C42",
   "status": "proved",
   "theorems": [
    "C42_survives_reopen",
    "C42_table_survives"
   ],
   "note": ""
  },
  {
   "property": "C43",
   "status": "proved",
   "theorems": [
    "C43_Catalog"
   ],
   "note": ""
  },
  {
   "property": "C44",
   "status": "partial",
   "theorems": [
    "C44_put_get_by_name",
    "C44_put_reopen_get_partial",
    "C44_put_reopen_exact",
    "C44_table_file_refuted",
    "C44_put_succeeds"
   ],
   "note": "The in-session half is proved without restriction. The re-open half is false for names of the symbol-table files (proved) and is decided for all other names on every symbol table: the file is fetched after re-opening exactly when the edit of the table leaves a readable table (C44_put_reopen_exact; C38_add_exact says when)."
  },
  {
   "property": "C45",
   "status": "partial",
   "theorems": [
    "C45_table_files_refuted",
    "C45_delete_partial",
    "C45_delete_number"
   ],
   "note": "False as stated for the symbol-table files: deleting FSYMTBL1 by name re-creates it (proved). Proved for all other files, and for the symbol-table files deleted by number."
  },
  {
   "property": "C46",
   "status": "partial",
   "theorems": [
    "C46_inverted_check_refuted",
    "C46_ParseCompoundSymbol_partial"
   ],
   "note": "False as stated: the validity check is inverted, new valid names are rejected and invalid ones accepted (proved). All other cases proved."
  },
  {
   "property": "C47",
   "status": "proved",
   "theorems": [
    "C47_bitmap_marks"
   ],
   "note": ""
  },
  {
   "property": "C48",
   "status": "partial",
   "theorems": [
    "C48_large_volumes_refuted",
    "C48_NewVolumeBitMap_partial"
   ],
   "note": "False as stated: above 61440 blocks the uint16 size computation wraps and NewVolumeBitMap panics (proved). Proved for all n up to 61440."
  },
  {
   "property": "C49",
   "status": "partial",
   "theorems": [
    "C49_small_devices_refuted",
    "C49_readVolumeBitMap_partial"
   ],
   "note": "False as stated: the size is divided by 4096 once too often, so devices below 4096 blocks get an empty bitmap (proved) and larger ones only the first 4096 blocks (proved)."
  },
  {
   "property": "C50",
   "status": "partial",
   "theorems": [
    "C50_Set_refuted",
    "C50_Get_partial",
    "C50_others_partial"
   ],
   "note": "False as stated: Set has a value receiver and stores nothing (proved). The Get half is proved, and that Set leaves the other entries unchanged."
  },
  {
   "property": "C51",
   "status": "proved",
   "theorems": [
    "C51_volume_directory",
    "C51_subdirectory",
    "C51_unknown_path"
   ],
   "note": "Subdirectory listing by path needs the paths of the volume to be distinct (C53 shows it fails otherwise)."
  },
  {
   "property": "C52",
   "status": "partial",
   "theorems": [
    "C52_block_cycle_refuted",
    "C52_subdirectory_cycle_refuted",
    "C52_parent_cycle_refuted",
    "C52_acyclic_partial",
    "C52_well_formed_acyclic",
    "C52_no_panic_partial",
    "C52_terminates_exact",
    "C52_never_exact"
   ],
   "note": "False as stated: three kinds of cycles make it run forever (proved, two of them for every image with such a cycle). Proved: it returns without panic on every image without cycles; and exactly which images of up to 65536 blocks are always, and which never, listed in finite time."
  },
  {
   "property": "C53",
   "status": "partial",
   "theorems": [
    "C53_same_name_refuted",
    "C53_volume_directory_partial",
    "C53_distinct_names_partial",
    "C53_exact"
   ],
   "note": "False as stated: with two subdirectories of the same full name the map order decides which is listed (proved). Proved for the volume directory on every image and for every path of a well-formed volume that only one directory has; if several have it, every order lists one of them and each is listed by some order (C53_exact)."
  },
  {
   "property": "C54",
   "status": "proved",
   "theorems": [
    "C54_Validate",
    "C54_reported_problems"
   ],
   "note": ""
  },
  {
   "property": "C55",
   "status": "partial",
   "theorems": [
    "C55_header_guess_refuted",
    "C55_programs_partial"
   ],
   "note": "False for files without a length header whose first two bytes happen to equal their size less 2 or 3 (proved with a 2057-byte program). Proved for all other files, with and without header."
  },
  {
   "property": "C56",
   "status": "partial",
   "theorems": [
    "C56_panic_refuted",
    "C56_loop_refuted",
    "C56_outcomes_partial"
   ],
   "note": "False as stated: a crash and an endless loop (proved). Proved: exactly when it diverges, crashes, returns a listing or an error, for every file."
  },
  {
   "property": "C57",
   "status": "partial",
   "theorems": [
    "C57_header_guess_refuted",
    "C57_programs_partial"
   ],
   "note": "False for files without a header that seem to have one: the decoder crashes on a valid program (proved). Proved for all other files."
  },
  {
   "property": "C58",
   "status": "partial",
   "theorems": [
    "C58_panic_refuted",
    "C58_outcomes_partial"
   ],
   "note": "False as stated: crashes (proved). Proved: it always returns, and exactly when it crashes or returns which lines."
  },
  {
   "property": "C59",
   "status": "proved",
   "theorems": [
    "C59_applesoft_listing"
   ],
   "note": ""
  },
  {
   "property": "C60",
   "status": "proved",
   "theorems": [
    "C60_control_codes"
   ],
   "note": ""
  },
  {
   "property": "C61",
   "status": "proved",
   "theorems": [
    "C61_filetype_names"
   ],
   "note": ""
  },
  {
   "property": "C62",
   "status": "proved",
   "theorems": [
    "C62_error_tags",
    "C62_error_tags_model"
   ],
   "note": "An error wrapped by fmt.Errorf loses its tag; this is part of the statement."
  },
  {
   "property": "C63",
   "status": "proved",
   "theorems": [
    "C63_WriteOutput"
   ],
   "note": ""
  },
  {
   "property": "C64",
   "status": "partial",
   "theorems": [
    "C64_full_medium_refuted",
    "C64_failed_command_partial",
    "C64_room_partial"
   ],
   "note": "False if the medium runs full while the image is written: os.WriteFile has truncated it by then (proved). Proved for every other failure of rm, put, mkhello, reorder and mksd."
  },
  {
   "property": "C65",
   "status": "partial",
   "theorems": [
    "C65_interrupted_refuted",
    "C65_interrupted_partial"
   ],
   "note": "False: the image is truncated before it is written (proved). Proved: a killed command leaves every other file alone and the image as it was or a prefix of the new one."
  },
  {
   "property": "C66",
   "status": "proved",
   "theorems": [
    "C66_reorder_orders"
   ],
   "note": ""
  },
  {
   "property": "C67",
   "status": "proved",
   "theorems": [
    "C67_standard_delivery",
    "C67_mksd_command"
   ],
   "note": "The text of the 6502 boot loader is data here; C88 is about what it does when run."
  },
  {
   "property": "C68",
   "status": "proved",
   "theorems": [
    "C68_mkhello_program"
   ],
   "note": "The 6502 program is data here: nothing is claimed about what it does when run."
  },
  {
   "property": "C69",
   "status": "partial",
   "theorems": [
    "C69_rm_force_refuted",
    "C69_unknown_name",
    "C69_rm_force_partial",
    "C69_rm_gone"
   ],
   "note": "False for every name that means nothing on the disk: Delete returns a file-not-found error before the flag is looked at (proved). Proved for numbers, and for symbols of files that do not exist when all names of the table can be written (C70); C108_rm_status says exactly when rm succeeds, with and without -f."
  },
  {
   "property": "C70",
   "status": "partial",
   "theorems": [
    "C70_unwritable_table_refuted",
    "C70_rewrite_partial"
   ],
   "note": "False as stated: names of one, two or more than nine characters are read but cannot be written (proved). Proved: writing back succeeds exactly if all names are valid, and then reads back the same table."
  },
  {
   "property": "C71",
   "status": "proved",
   "theorems": [
    "C71_bitmap_Write",
    "C71_failed_Write"
   ],
   "note": ""
  },
  {
   "property": "C72",
   "status": "proved",
   "theorems": [
    "C72_integer_listing"
   ],
   "note": ""
  },
  {
   "property": "C73",
   "status": "partial",
   "theorems": [
    "C73_string_names",
    "C73_table_names_refuted",
    "C73_table_names_partial"
   ],
   "note": "False for the one-letter names of \"new A\" and \"new B\" in the table printed by the filetypes command (proved); proved for everything String prints and for all other names of the table."
  },
  {
   "property": "C74",
   "status": "proved",
   "theorems": [
    "C74_readers_write_nothing"
   ],
   "note": ""
  },
  {
   "property": "C75",
   "status": "partial",
   "theorems": [
    "C75_fitting_binary_refuted",
    "C75_fitting_binary_partial"
   ],
   "note": "False as stated: the check adds the length to the start address, not the load address, so binaries that fit are refused (proved). Proved: what is accepted always fits, and a binary started at its load address (>= 1000) is accepted iff it fits."
  },
  {
   "property": "C76",
   "status": "proved",
   "theorems": [
    "C76_put_effect",
    "C76_rm_effect"
   ],
   "note": ""
  },
  {
   "property": "C77",
   "status": "partial",
   "theorems": [
    "C77_put_then_dump_refuted",
    "C77_put_then_dump_partial",
    "C77_put_then_dump_symbolic_partial"
   ],
   "note": "False: data that looks like a DOS 3.3 VTOC stored in track 17 sector 0 makes the disk a DOS 3.3 disk (proved). Proved for numeric names, and for symbolic names on disks whose symbol table has unique names and live links, when the byte that DOS 3.3 checks is not 3 and the order is the first tried. C90_put_named covers every symbol table and every order of the image; missing here: the names of the table's own files, and data that changes what the disk is taken for (false there)."
  },
  {
   "property": "C78",
   "status": "proved",
   "theorems": [
    "C78_VTOC_in_place",
    "C78_CatalogSector_in_place",
    "C78_TrackSectorList_in_place",
    "C78_VolumeDirectoryKeyBlock_in_place",
    "C78_VolumeDirectoryBlock_in_place",
    "C78_SubdirectoryKeyBlock_in_place",
    "C78_SubdirectoryBlock_in_place",
    "C78_bitmapPart_in_place"
   ],
   "note": ""
  },
  {
   "property": "C79",
   "status": "proved",
   "theorems": [
    "C79_ls_dos3",
    "C79_ls_prodos",
    "C79_ls_prodos_several",
    "C79_ls_prodos_unknown_path",
    "C79_ls_nakedos",
    "C79_ls_no_subdirectories"
   ],
   "note": "For images that are seen as a disk of the system (see C83). Of several ProDOS directories with one path one is listed (C53_exact)."
  },
  {
   "property": "C80",
   "status": "partial",
   "theorems": [
    "C80_header_guess_refuted",
    "C80_decode_prints_partial"
   ],
   "note": "False for files without a length that seem to have one (proved: decode of such a program is an error); proved for all others."
  },
  {
   "property": "C81",
   "status": "proved",
   "theorems": [
    "C81_dump_dos3",
    "C81_dump_dos3_missing",
    "C81_dump_nakedos",
    "C81_dump_prodos"
   ],
   "note": ""
  },
  {
   "property": "C82",
   "status": "proved",
   "theorems": [
    "C82_unsupported_changes_fail"
   ],
   "note": ""
  },
  {
   "property": "C83",
   "status": "partial",
   "theorems": [
    "C83_blank_image_refuted",
    "C83_cyclic_catalog_refuted",
    "C83_detected_partial",
    "C83_unreadable_partial"
   ],
   "note": "False as stated: an image of zeros is opened as ProDOS, and a cyclic catalog chain makes opening run forever (both proved). Proved: a disk of a system is opened as such unless an earlier candidate order or system also recognises it or hangs; an image that no system recognises in any order is refused. What happens to every other image is decided by C110."
  },
  {
   "property": "C84",
   "status": "partial",
   "theorems": [
    "C84_power_refuted",
    "C84_keywords_partial",
    "C84_integer_keywords"
   ],
   "note": "False for three Applesoft tokens: ^ is listed as a semicolon (proved), DEF as DEF FN, TAB( as TAB. Proved for all others and for all Integer BASIC words in the table of the specification."
  },
  {
   "property": "C85",
   "status": "proved",
   "theorems": [
    "C85_address_arguments"
   ],
   "note": "strconv.ParseUint is modelled from the source of the Go standard library; kong's splitting of the command line is not modelled."
  },
  {
   "property": "C86",
   "status": "proved",
   "theorems": [
    "C86_filetypes_table",
    "C86_short_list"
   ],
   "note": "text/tabwriter is modelled for lines with equally many ASCII cells, the only use made of it."
  },
  {
   "property": "C87",
   "status": "partial",
   "theorems": [
    "C87_output_errors_refuted",
    "C87_output_errors_partial"
   ],
   "note": "False for ls, applesoft decode and filetypes, which drop the error of the write (proved); proved for rm, put, reorder, mksd, mkhello and dump."
  },
  {
   "property": "C88",
   "status": "partial",
   "theorems": [
    "C88_page8_refuted",
    "C88_page0_refuted",
    "C88_page1_refuted",
    "C88_boots_partial"
   ],
   "note": "False for binaries in page 8 (the loader overwrites itself) page 0 (never loaded) or pages 1 and 2 (the stack): mksd accepts them, proved with witnesses. Proved for every binary that keeps out of pages 0, 3 and 8 and uses page 1 at most as its last page, from every machine state after the controller's cold start. The machine (BootSpec.v) is written from the 6502, Monitor and Disk II documentation. Missing: page 3, the PROM's own buffer."
  },
  {
   "property": "C89",
   "status": "partial",
   "theorems": [
    "C89_full_names_refuted",
    "C89_numeric_symbol_refuted",
    "C89_dos3_types_refuted",
    "C89_dos3_crash_refuted",
    "C89_dos3_same_name_refuted",
    "C89_short_exact",
    "C89_short_names_partial",
    "C89_dos3_partial"
   ],
   "note": "False (proved): without --short the lines for NakedOS files with a symbol are refused by dump and rm; a symbol that reads as a file number gives another file; DOS 3.3 files of other types than T, I, A, B are listed but cannot be dumped, and malformed ones crash dump; of several DOS 3.3 files of one name dump prints the first only. Proved: for every NakedOS file what dump does with the line of ls --short (C89_short_exact), hence the claim for unambiguous symbols; DOS 3.3 for the first well-formed file of a name. ProDOS files cannot be dumped (C81)."
  },
  {
   "property": "C90",
   "status": "partial",
   "theorems": [
    "C90_stale_symbol_refuted",
    "C90_put_known",
    "C90_put_loses_names_refuted",
    "C90_put_symbol_partial",
    "C90_put_named",
    "C90_put_named_chained"
   ],
   "note": "False: a symbol left over from a removed file of the same number hides the name given, and a put that moves a symbol can damage the symbol table so that ls shows no names any more (proved with witnesses). Proved for files put by number or existing name, and for new names which number the file gets and which name ls shows; for number:name and for symbols bound to anything before, exactly what ls and dump show, for every symbol table."
  },
  {
   "property": "C91",
   "status": "partial",
   "theorems": [
    "C91_rm_loses_names_refuted",
    "C91_table_symbol_refuted",
    "C91_rm",
    "C91_rm_chained",
    "C91_rm_table_files"
   ],
   "note": "False: rm of a name can damage the symbol table so that ls shows no names any more, and rm FSYMTBL1 reports success without removing the file (proved with witnesses). Proved: which files there are and what they hold, and exactly what ls and dump show afterwards, for every symbol table; the table files 3 and 4 have a theorem of their own."
  },
  {
   "property": "C92",
   "status": "proved",
   "theorems": [
    "C92_reorder_shows"
   ],
   "note": "The new image is looked at with an order flag that makes the new order the first one tried; other flags are C83's subject."
  },
  {
   "property": "C93",
   "status": "partial",
   "theorems": [
    "C93_crash_refuted",
    "C93_empty_put_refuted",
    "C93_exit_status_partial"
   ],
   "note": "False (proved with witnesses): put of an empty file, dump of a DOS 3.3 file with an impossible length and applesoft decode of certain programs crash; cyclic catalogs and programs make commands run forever. Proved: for inputs with none of these faults, other damage to the image included, every command ends with the exit status that says whether it succeeded, and after an error no file has changed. No file changed assumes room on the medium (C64). For ls, dump, rm, put and mkhello the outcome is decided for every image in C110."
  },
  {
   "property": "C94",
   "status": "partial",
   "theorems": [
    "C94_off_chain_refuted",
    "C94_one_edit_partial",
    "C94_history_partial"
   ],
   "note": "False: a symbol moved to an address with hash 0 can be left off its chain (proved: three additions to a blank table). Proved: exactly what every other addition, move and deletion does to the chains, and all histories through the disk that avoid this and the damaging deletions of C38."
  },
  {
   "property": "C95",
   "status": "proved",
   "theorems": [
    "C95_session",
    "C95_harmless"
   ],
   "note": "Put under a new symbol, rm by symbol and changes of the files 3 and 4 change the symbols themselves and are not part of the claim: C38, C90, C91 and C94 show what goes wrong there."
  },
  {
   "property": "C96",
   "status": "proved",
   "theorems": [
    "C96_input",
    "C96_output",
    "C96_in_place"
   ],
   "note": "put with both the image and the file from standard input is refused by the command. An image that is not of floppy size (.hdv) cannot come from a pipe: OpenImage wants the extension."
  },
  {
   "property": "C97",
   "status": "proved",
   "theorems": [
    "C97_only_told"
   ],
   "note": "A file has one name in the model (no links, no alternative spellings of a path)."
  },
  {
   "property": "C98",
   "status": "proved",
   "theorems": [
    "C98_named_session",
    "C98_spared"
   ],
   "note": "The restrictions are those of the statement (C91 and C94 show what happens to the first symbol and to a symbol moved to file 95 or 223). Of the names that cannot be symbols, those of letters and digits and malformed compound names are covered."
  },
  {
   "property": "C99",
   "status": "partial",
   "theorems": [
    "C99_cannot_be_told_refuted",
    "C99_put_rm_dos3_refuted",
    "C99_told_partial",
    "C99_ls_told_nakedos_partial"
   ],
   "note": "False: dump, put and rm admit only auto and dos3 for --system (mkhello has no such flag), so there are NakedOS disks whose files only ls can be told to see; and put and rm told dos3 fail on every image (both proved). Proved: a system that is told is used, whatever other systems recognise."
  },
  {
   "property": "C100",
   "status": "partial",
   "theorems": [
    "C100_lost_update_refuted",
    "C100_torn_read_refuted",
    "C100_mixed_read_refuted",
    "C100_any_mix_refuted",
    "C100_reader_sees",
    "C100_undisturbed",
    "C100_apart_partial",
    "C100_every_execution_ends"
   ],
   "note": "False for commands that share an image: of any two commands that change it in place one can be lost while both exit 0; ls and dump beside a command that changes the image can find it empty, or see the first j bytes of the old and then the new one up to any m (all proved by constructing the interleaving), and beside one undisturbed changing command it sees nothing but such a mixture. Proved: a command whose files nobody else writes behaves as if alone whatever the others do; any number of commands none of which writes a file another uses behave as if alone in every interleaving; and, for any commands at all, no interleaving goes on for ever and none gets stuck."
  },
  {
   "property": "C101",
   "status": "proved",
   "theorems": [
    "C101_put_again"
   ],
   "note": "For names without a colon that mean a file; a symbol that means file 3 or 4 (the symbol table itself) is left out, because the names may be others after the first put. The new image must be recognised as NakedOS (C83 and C77 say when it is)."
  },
  {
   "property": "C102",
   "status": "proved",
   "theorems": [
    "C102_looking"
   ],
   "note": "A command that reads the image from standard input takes it from the next one and is left out; in a session each command has an empty standard input."
  },
  {
   "property": "C103",
   "status": "proved",
   "theorems": [
    "C103_any_order"
   ],
   "note": "With room to write; the file to be put is not empty (an empty one crashes the program, C93) and not standard input."
  },
  {
   "property": "C104",
   "status": "proved",
   "theorems": [
    "C104_put_rm"
   ],
   "note": "For files given by number whose spelling is no symbol, other than files 3 and 4. Free sectors may keep the bytes of the removed file (stated by what is said only of sectors in use)."
  },
  {
   "property": "C105",
   "status": "proved",
   "theorems": [
    "C105_copied"
   ],
   "note": "For target names without a colon and files other than 3 and 4."
  },
  {
   "property": "C106",
   "status": "partial",
   "theorems": [
    "C106_crash_refuted",
    "C106_directory_refuted",
    "C106_same_partial",
    "C106_one_order",
    "C106_ls_settled",
    "C106_dump_settled",
    "C106_rm_settled",
    "C106_put_settled",
    "C106_mkhello_settled",
    "C106_device"
   ],
   "note": "False (proved with witnesses): a volume where one subdirectory is its own parent and the parent of another cannot be found is refused under one order and overflows the stack under another; where two subdirectories have one name, ls of that name lists one or the other. Proved for every command in all runs that do not crash, except ls of a directory; with one order also that. With an order of its own for each visit, and for all runs, also those that crash: proved for every command unless the image can be taken for a volume of which the listing can both fail and hang (and for ls of a directory unless two subdirectories have its name); for ls of a device image that condition is exact."
  },
  {
   "property": "C107",
   "status": "partial",
   "theorems": [
    "C107_header_guess_refuted",
    "C107_no_lines_refuted",
    "C107_listing_partial",
    "C107_short_programs"
   ],
   "note": "False (proved with disks): a program of 2057 bytes whose first line is 10 REM is rejected, because its first two bytes are its size minus two, and so is the program without lines. Proved for every program that does not start like that, in particular every non-empty one of less than 2056 bytes."
  },
  {
   "property": "C108",
   "status": "proved",
   "theorems": [
    "C108_put_status",
    "C108_rm_status",
    "C108_mkhello_status",
    "C108_dump_status"
   ],
   "note": "For images recognised as NakedOS (C79), worlds with room, and, for put, ASCII target names. Other systems refuse every edit (C82)."
  },
  {
   "property": "C109",
   "status": "proved",
   "theorems": [
    "C109_listing",
    "C109_each",
    "C109_recognised"
   ],
   "note": "For images of up to 65536 blocks (block numbers are 16 bits). A run without end is a stack overflow where the cycle is one of parent pointers or subdirectories."
  },
  {
   "property": "C110",
   "status": "proved",
   "theorems": [
    "C110_opening",
    "C110_one",
    "C110_ls",
    "C110_dump",
    "C110_rm",
    "C110_put",
    "C110_mkhello"
   ],
   "note": "A crash and a run without end are not told apart (both exit 2 or never). Files that can be read; room on the medium (C64); put with an ASCII target, and not both image and source on standard input."
  },
  {
   "property": "C111",
   "status": "proved",
   "theorems": [
    "C111_reorder",
    "C111_mksd",
    "C111_decode",
    "C111_unreadable",
    "C111_put_source",
    "C111_unwritable"
   ],
   "note": "Room on the medium is assumed (C64, C87 treat full media). The flag values are those kong admits. With C86 and C110 this covers every command."
  },
  {
   "property": "C112",
   "status": "proved",
   "theorems": [
    "C112_opening",
    "C112_opening_each",
    "C112_ls",
    "C112_ls_each",
    "C112_dump",
    "C112_rm",
    "C112_put",
    "C112_mkhello",
    "C112_dump_each",
    "C112_rm_each",
    "C112_put_each",
    "C112_mkhello_each",
    "C112_one_order"
   ],
   "note": "While an image is opened the map is visited at most once for each candidate order, so the visits are an order for each of these and one for the listing. Hypotheses as for C110."
  },
  {
   "property": "C113",
   "status": "proved",
   "theorems": [
    "C113_determined",
    "C113_WriteFile",
    "C113_table",
    "C113_put",
    "C113_mkhello",
    "C113_rm"
   ],
   "note": "Assumes put with contents and an ASCII target: an empty file has no sectors to place, and a target that is not ASCII goes through Unicode case folding (C90, C108 cover both)."
  },
  {
   "property": "C114",
   "status": "proved",
   "theorems": [
    "C114_put",
    "C114_mkhello",
    "C114_unnamed"
   ],
   "note": "For images recognised as NakedOS and worlds with room. A symbol given to file 3 or 4, and an edit that damages the symbol table (add_breaks, C38), are left out as the statement says."
  },
  {
   "property": "C115",
   "status": "proved",
   "theorems": [
    "C115_any_order",
    "C115_growing"
   ],
   "note": "As in C95: files 3 and 4 and edits of the symbol table are left out, and no command may find the mark of DOS 3.3 on the image (C95_harmless says when none does)."
  },
  {
   "property": "C116",
   "status": "proved",
   "theorems": [
    "C116_case",
    "C116_dump",
    "C116_put",
    "C116_rm",
    "C116_mkhello",
    "C116_mkhello_put"
   ],
   "note": "dump on DOS 3.3 images tells upper from lower case (C116_dos3_example). rm of a symbol also removes the symbol, so rm by number and by symbol differ. A symbol in the target that the file already has must be one that can be written (C70)."
  },
  {
   "property": "C117",
   "status": "proved",
   "theorems": [
    "C117_shelf",
    "C117_spared"
   ],
   "note": "As in C98, actions that touch files 3 and 4 or the first card, or move a symbol to file 95 or 223, are outside; so are images on which a command finds the mark of DOS 3.3 (C117_spared says when none does). A command has to be given the order the disk is in, by its flag or by the extension."
  },
  {
   "property": "C118",
   "status": "proved",
   "theorems": [
    "C118_any_order"
   ],
   "note": "Puts under a new name alone, which take the least unused number, are left out, since which file that is depends on the order. The restrictions of C98 on files 3 and 4, the first symbol and files 95 and 223 apply."
  },
  {
   "property": "C119",
   "status": "proved",
   "theorems": [
    "C119_exactly",
    "C119_freeing_first",
    "C119_best",
    "C119_left"
   ],
   "note": "Names and the mark of DOS 3.3 as in C95 and C115. Puts of empty files, which crash or do nothing (C108), are left out."
  },
  {
   "property": "C120",
   "status": "proved",
   "theorems": [
    "C120_mkhello_runs"
   ],
   "note": "The machine (BootSpec.v, HelloSpec.v) is part of the statement: the call NKRDFILE is described from the comments in cmd/nakedos.go; what NakedOS does to pages 0 to 3 is left open, and where it reads the loader is any place."
  },
  {
   "property": "C121",
   "status": "proved",
   "theorems": [
    "C121_latest",
    "C121_every_disk"
   ],
   "note": "Over the sessions of C117 and the machine of C120."
  },
  {
   "property": "C122",
   "status": "proved",
   "theorems": [
    "C122_told",
    "C122_shown"
   ],
   "note": "The image is told by the first order tried, as in C83; for an image told only by a later order, what the earlier one looks at would have to be the same too."
  },
  {
   "property": "C123",
   "status": "proved",
   "theorems": [
    "C123_twins"
   ],
   "note": "Both images have the same byte where DOS 3.3 has its release number, and no command of the session finds the mark of DOS 3.3 there (C77). Puts of empty files (C108), and put from standard input or from the image itself, are left out."
  },
  {
   "property": "C124",
   "status": "proved",
   "theorems": [
    "C124_dump",
    "C124_restore",
    "C124_unmarked",
    "C124_fits",
    "C124_backup",
    "C124_names"
   ],
   "note": "With room on the media of the computer, and no command may find the mark of DOS 3.3 on the copy (C77; C124_unmarked says when none does). The bytes saved between dump and put are those that dump prints (C124_dump)."
  },
  {
   "property": "C125",
   "status": "partial",
   "theorems": [
    "C125_po",
    "C125_reorder",
    "C125_never_dos3",
    "C125_edits_partial",
    "C125_edits_unlike_partial",
    "C125_taken",
    "C125_larger_refuted",
    "C125_empty"
   ],
   "note": "put, rm and mkhello fail if the binary has at most nine pages (C125_edits_partial), and for any size unless a certain part of the binary is a well-formed NakedOS sector map (C125_edits_unlike_partial, C125_taken). With such a part put can succeed and write over the disk (C125_larger_refuted)."
  },
  {
   "property": "C126",
   "status": "proved",
   "theorems": [
    "C126_same",
    "C126_told_apart",
    "C126_copied"
   ],
   "note": "No command of the session finds the mark of DOS 3.3 on either image (C77). Puts of empty files (C108), and put from standard input or from the image itself, are left out. The converse is for images that can be written and a computer with another file to save to; both images are in the same sector order (C103 compares orders)."
  },
  {
   "property": "C127",
   "status": "proved",
   "theorems": [
    "C127_undone"
   ],
   "note": "Files 3 and 4 (the symbol table) and puts that bind new symbols are left out, and rm is by number, as in C95; no command may find the mark of DOS 3.3 on the image (C77, C95_harmless). The later sessions are those of C126."
  },
  {
   "property": "C128",
   "status": "proved",
   "theorems": [
    "C128_same"
   ],
   "note": "ls and dump only: put, rm and mkhello fail on DOS 3.3 images (C82). The number of track/sector lists counts because GetFile may return zeros of the buffer past the data (C19)."
  },
  {
   "property": "C129",
   "status": "proved",
   "theorems": [
    "C129_same",
    "C129_told_apart"
   ],
   "note": "For volumes that are trees (C51); folders with one path in common are left out (C53). Standard output takes everything."
  },
  {
   "property": "C130",
   "status": "proved",
   "theorems": [
    "C130_pipeline"
   ],
   "note": "The stages are run one after the other, each on all the output of the stage before; no stage writes a file, so that running at the same time they would do the same. There is room on the media and standard output takes everything. Names of the image and orders of reorder as in C96."
  }
 ]
}