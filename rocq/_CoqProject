-Q theories Verif
theories/Base.v
theories/M_Attr.v
theories/M_Backend.v
theories/M_Bindings.v
theories/M_Builder.v
theories/M_Cdecl.v
theories/M_Cfg.v
theories/M_Cli.v
theories/M_Config.v
theories/M_Docs.v
theories/M_Files.v
theories/M_Ir.v
theories/M_Item.v
theories/M_Library.v
theories/M_Literal.v
theories/M_Loader.v
theories/M_Parser.v
theories/M_Reserved.v
theories/M_Settings.v
theories/M_Syn.v
theories/M_Type.v
theories/M_Writer.v
theories/P_Alike.v
theories/P_Assoc.v
theories/P_AssocText.v
theories/P_Attr.v
theories/P_Base.v
theories/P_Bindings.v
theories/P_Bracketed.v
theories/P_Builder.v
theories/P_Cargo.v
theories/P_CastType.v
theories/P_Cdecl.v
theories/P_Cfg.v
theories/P_Cli.v
theories/P_CompText.v
theories/P_Complete.v
theories/P_ConstMade.v
theories/P_ConstText.v
theories/P_Constants.v
theories/P_Crates.v
theories/P_DataText.v
theories/P_Datatypes.v
theories/P_DeclWritten.v
theories/P_Declared.v
theories/P_Demo.v
theories/P_Deps.v
theories/P_Derived.v
theories/P_Docs.v
theories/P_Entries.v
theories/P_EnumText.v
theories/P_Enums.v
theories/P_Exports.v
theories/P_Expr.v
theories/P_File.v
theories/P_Files.v
theories/P_Fresh.v
theories/P_Guarded.v
theories/P_Head.v
theories/P_Hints.v
theories/P_Inline.v
theories/P_Instance.v
theories/P_Item.v
theories/P_ItemPasses.v
theories/P_Keywords.v
theories/P_Known.v
theories/P_Layers.v
theories/P_Layout.v
theories/P_Lex.v
theories/P_Library.v
theories/P_Literal.v
theories/P_Loaded.v
theories/P_Made.v
theories/P_Maker.v
theories/P_Mangle.v
theories/P_Marks.v
theories/P_Members.v
theories/P_Method.v
theories/P_MethodLex.v
theories/P_Modules.v
theories/P_Mono.v
theories/P_MonoEnds.v
theories/P_MonoLib.v
theories/P_MonoPipe.v
theories/P_Names.v
theories/P_NamesLib.v
theories/P_Notes.v
theories/P_Outline.v
theories/P_Rename.v
theories/P_Repr.v
theories/P_Reserved.v
theories/P_Settings.v
theories/P_Shape.v
theories/P_Shown.v
theories/P_SigLib.v
theories/P_SigSources.v
theories/P_Signature.v
theories/P_Sort.v
theories/P_Sources.v
theories/P_Spelling.v
theories/P_Stages.v
theories/P_Table.v
theories/P_Tokens.v
theories/P_Transfer.v
theories/P_Triples.v
theories/P_Twice.v
theories/P_Type.v
theories/P_Value.v
theories/P_Variants.v
theories/P_Writer.v
theories/P_Written.v
theories/S_Attr.v
theories/S_Builder.v
theories/S_Cargo.v
theories/S_Cfg.v
theories/S_Cli.v
theories/S_Comment.v
theories/S_Complete.v
theories/S_Constants.v
theories/S_Datatypes.v
theories/S_Decl.v
theories/S_Demo.v
theories/S_Derived.v
theories/S_Enums.v
theories/S_Expr.v
theories/S_Fields.v
theories/S_File.v
theories/S_Files.v
theories/S_Guarded.v
theories/S_Head.v
theories/S_Heck.v
theories/S_Hints.v
theories/S_Item.v
theories/S_Keywords.v
theories/S_Known.v
theories/S_Layers.v
theories/S_Layout.v
theories/S_Lex.v
theories/S_Library.v
theories/S_Literal.v
theories/S_Make.v
theories/S_Maker.v
theories/S_Marks.v
theories/S_Method.v
theories/S_Mono.v
theories/S_Names.v
theories/S_Outline.v
theories/S_Parse.v
theories/S_Rename.v
theories/S_Samples.v
theories/S_Settings.v
theories/S_Shown.v
theories/S_Signature.v
theories/S_Sort.v
theories/S_Sources.v
theories/S_Style.v
theories/S_Suite.v
theories/S_Suite01.v
theories/S_Suite02.v
theories/S_Suite03.v
theories/S_Suite04.v
theories/S_Suite05.v
theories/S_Suite06.v
theories/S_Suite07.v
theories/S_Suite08.v
theories/S_Suite09.v
theories/S_Suite10.v
theories/S_Suite11.v
theories/S_Suite12.v
theories/S_Suite13.v
theories/S_Suite14.v
theories/S_Suite15.v
theories/S_Suite16.v
theories/S_Tame.v
theories/S_Twice.v
theories/S_Type.v
theories/S_Value.v
theories/S_Writer.v
theories/T_Assoc.v
theories/T_Attr.v
theories/T_Backend.v
theories/T_Bindings.v
theories/T_Builder.v
theories/T_Cargo.v
theories/T_Cdecl.v
theories/T_Cfg.v
theories/T_Cli.v
theories/T_Complete.v
theories/T_Constants.v
theories/T_Datatypes.v
theories/T_Enums.v
theories/T_Further.v
theories/T_Head.v
theories/T_Item.v
theories/T_Layout.v
theories/T_Library.v
theories/T_Literal.v
theories/T_Maker.v
theories/T_Marks.v
theories/T_Members.v
theories/T_Method.v
theories/T_Mono.v
theories/T_Names.v
theories/T_Parse.v
theories/T_Rename.v
theories/T_Reserved.v
theories/T_Settings.v
theories/T_Shown.v
theories/T_Signature.v
theories/T_Sources.v
theories/T_Transfer.v
theories/T_Twice.v
theories/T_Type.v
theories/T_Value.v
theories/T_Writer.v
