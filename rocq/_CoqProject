-Q theories Verif

theories/Base.v
theories/Prims.v
theories/BaseFacts.v
theories/Spec.v
theories/PrimsFacts.v
theories/StringFacts.v
theories/Guid.v
theories/GuidFacts.v
theories/Float.v
theories/RoundFacts.v
theories/FloatFacts.v
theories/TextSpec.v
theories/TextFacts.v
theories/P_Prims.v
theories/Kind.v
theories/Types.v
theories/Schema.v
theories/Layout.v
theories/WellTyped.v
theories/TypesFacts.v
theories/TypesFacts2.v
theories/Entity.v
theories/EntitySpec.v
theories/EntityFacts.v
theories/AttrFacts.v
theories/WallFacts.v
theories/P_Attrs.v
theories/P_Entity.v
theories/DataMap.v
theories/DataSpec.v
theories/DataMapFacts.v
theories/SectionFacts.v
theories/P_Data.v
theories/Header.v
theories/File.v
theories/HeaderSpec.v
theories/HeaderFacts.v
theories/PanicFacts.v
theories/FileSpec.v
theories/StrictTime.v
theories/Context.v
theories/FileFacts.v
theories/FileFacts2.v
theories/FileFacts3.v
theories/P_Header.v
theories/P_File.v
theories/Extractor.v
theories/ExtractorSpec.v
theories/ExtractorFacts.v
theories/P_Extractor.v
theories/Arith.v
theories/Builder.v
theories/BuilderRun.v
theories/BuilderBase.v
theories/BuilderGrow.v
theories/BuilderSpec.v
theories/BuilderRel.v
theories/BuilderRel2.v
theories/BuilderEmit.v
theories/BuilderInv.v
theories/BuilderStep.v
theories/BuilderAll.v
theories/BuilderIds.v
theories/BuilderOut.v
theories/BuilderExample.v
theories/P_Builder.v
theories/ArithFacts.v
theories/BuilderLoadSpec.v
theories/BuilderAny.v
theories/TemplateSpec.v
theories/BuilderGood.v
theories/BuilderGood2.v
theories/BuilderGood3.v
theories/BuilderLoad.v
theories/P_Load.v
theories/HistorySpec.v
theories/BuilderHist.v
theories/BuilderPlace.v
theories/BuilderKeep.v
theories/P_Place.v
theories/MoveSpec.v
theories/BuilderMove.v
theories/BuilderMove2.v
theories/BuilderMove3.v
theories/P_Move.v
theories/GivenSpec.v
theories/BuilderGiven.v
theories/BuilderGiven2.v
theories/P_Given.v
theories/FormSpec.v
theories/BuilderForm.v
theories/BuilderForm2.v
theories/P_Form.v
theories/OrderSpec.v
theories/BuilderOrder.v
theories/BuilderOrder2.v
theories/BuilderOrder3.v
theories/BuilderOrder4.v
theories/BuilderOrder5.v
theories/BuilderOrder6.v
theories/BuilderOrder7.v
theories/P_Order.v
theories/ExtractSpec.v
theories/BuilderRead.v
theories/BuilderRead2.v
theories/P_Extract.v
theories/Mapping.v
theories/MapSpec.v
theories/MappingFacts.v
theories/MappingFacts2.v
theories/MappingBuilt.v
theories/P_Mapping.v
theories/Api.v
theories/ApiSpec.v
theories/ApiFacts.v
theories/ApiFacts2.v
theories/ApiFacts3.v
theories/ApiFacts4.v
theories/ApiFacts5.v
theories/ApiFacts6.v
theories/ApiExample.v
theories/P_Api.v
theories/Walk.v
theories/WalkSpec.v
theories/WalkFacts.v
theories/WalkFacts2.v
theories/WalkFacts3.v
theories/WalkNorm.v
theories/P_Walk.v
theories/NameSpec.v
theories/NameFacts.v
theories/P_Names.v
theories/ArithSpec.v
theories/ArithRound.v
theories/ArithSpecial.v
theories/ArithUnit.v
theories/DirSpec.v
theories/BuilderDirs.v
theories/DirFacts.v
theories/P_Dirs.v
theories/GeoSpec.v
theories/GeoFacts.v
theories/P_Geo.v
theories/Params.v
theories/ParamsSpec.v
theories/ParamsFacts.v
theories/P_Params.v
theories/AccSpec.v
theories/AccFacts.v
theories/P_Acc.v
theories/Replay.v
theories/UniqueSpec.v
theories/BuilderTemplate.v
theories/NumberSpec.v
theories/BuilderNumber.v
theories/BuilderUnique.v
theories/P_Unique.v
theories/P_Template.v
theories/ProgressSpec.v
theories/BuilderSafe.v
theories/BuilderSafe2.v
theories/BuilderSafe3.v
theories/BuilderProgress.v
theories/P_Progress.v
theories/SpellSpec.v
theories/SpellFacts.v
theories/SpellHead.v
theories/P_Spell.v
theories/GramSpec.v
theories/GramFacts.v
theories/GramHead.v
theories/RoundUnique.v
theories/SpellIff.v
theories/P_Gram.v
theories/LinesSpec.v
theories/LinesFacts.v
theories/P_Lines.v
theories/EditSpec.v
theories/EditFacts.v
theories/P_Edit.v
theories/ContextFacts.v
theories/DeclSpec.v
theories/DeclFacts.v
theories/DeclNames.v
theories/SigSpec.v
theories/SigFacts.v
theories/P_Decl.v
theories/P_Sig.v
theories/LayoutSpec.v
theories/LayoutFacts.v
theories/P_Layout.v
theories/RealForm.v
theories/P_Real.v
