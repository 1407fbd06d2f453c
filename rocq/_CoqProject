-Q theories Verif
theories/PyStr.v
theories/PyStrFacts.v
theories/PyVal.v
theories/PyValFacts.v
theories/Jp.v
theories/SpecJp.v
theories/JpFacts.v
theories/Scope.v
theories/SpecScope.v
theories/ScopeFacts.v
theories/UrlLib.v
theories/Urls.v
theories/SpecUrl.v
theories/UrlFacts.v
theories/UrlFacts2.v
theories/UrlFacts3.v
theories/Deref.v
theories/SpecDeref.v
theories/DerefFacts.v
theories/CompareContainer.v
theories/SpecJson.v
theories/CompareFacts.v
theories/PropertiesUtilsAux.v
theories/PropertiesUtils.v
theories/SpecCompareFilter.v
theories/CompareFilterFacts.v
theories/PropertiesCompare.v
theories/Obj.v
theories/ObjState.v
theories/NatDecFacts.v
theories/SpecObj.v
theories/ObjFacts.v
theories/ShapeFacts.v
theories/DumpFacts.v
theories/ReloadFacts.v
theories/ResolveFacts.v
theories/StateFacts.v
theories/StateFacts2.v
theories/Classes_v1_2.v
theories/Classes_v2_0.v
theories/Classes_v3_0_0.v
theories/TablesFacts.v
theories/ObjCompare.v
theories/SpecCompare.v
theories/ObjCompareFacts.v
theories/SpecOverride.v
theories/OverrideFacts.v
theories/Cache.v
theories/SpecCache.v
theories/CacheFacts.v
theories/SpecTables.v
theories/PropertiesObjAux.v
theories/PropertiesObj.v
theories/Scan.v
theories/SpecScan.v
theories/ScanFacts.v
theories/ScanFacts2.v
theories/ScanFacts3.v
theories/DispatchFacts.v
theories/PropertiesScanAux.v
theories/PropertiesScan.v
theories/Store.v
theories/SpecStore.v
theories/StoreFacts.v
theories/StoreFacts2.v
theories/UntilFacts.v
theories/PropertiesStore.v
theories/Getter.v
theories/SpecGetter.v
theories/GetterFacts.v
theories/PropertiesGetter.v
theories/Conv20.v
theories/SpecSchema.v
theories/ConvFacts.v
theories/SchemaFacts.v
theories/SchemaFacts2.v
theories/SpecConv.v
theories/ParamFacts.v
theories/SpecBody.v
theories/BodyFacts.v
theories/BodyFacts2.v
theories/ParamListFacts.v
theories/ParamListFacts2.v
theories/SpecOp.v
theories/OpFacts.v
theories/OpFacts2.v
theories/PathFacts.v
theories/PathFacts2.v
theories/SpecDoc.v
theories/SpecGiven.v
theories/DocFacts.v
theories/DocFacts2.v
theories/RelocFacts.v
theories/RelocFacts2.v
theories/RelocFacts3.v
theories/RelocFacts4.v
theories/Up30.v
theories/Up30Facts.v
theories/ParamListFacts3.v
theories/TotalFacts.v
theories/PropertiesConvAux.v
theories/PropertiesConv1.v
theories/PropertiesConv2.v
theories/App.v
theories/SpecApp.v
theories/AppFacts.v
theories/AppFacts2.v
theories/AppFacts3.v
theories/AppFacts4.v
theories/AppFacts5.v
theories/Main.v
theories/MainFacts.v
theories/PropertiesApp.v
theories/MergePath.v
theories/SpecMerge.v
theories/MergeFacts.v
theories/YamlFix.v
theories/YamlFacts.v
theories/PropertiesScanners.v
theories/Up12.v
theories/TraverseFacts.v
theories/SpecUp12.v
theories/NumeralFacts.v
theories/Up12Facts.v
theories/Up12Facts2.v
theories/Up12Facts3.v
theories/Up12Facts4.v
theories/Up12Facts5.v
theories/Up12Facts6.v
theories/Up12Facts7.v
theories/Up12Facts8.v
theories/Up12Facts9.v
theories/Up12Facts10.v
theories/Up12Facts11.v
theories/Up12Facts12.v
theories/PropertiesUp12.v
theories/SpecRefs.v
theories/RefFacts.v
theories/PropertiesRefs.v
theories/SpecOpen.v
theories/Whole.v
theories/RewriteFacts.v
theories/OpenFacts.v
theories/CleanFacts.v
theories/WfFacts.v
theories/WfFacts12.v
theories/OpenFacts2.v
theories/RewriteFacts2.v
theories/PropertiesOpen.v
theories/TaskFacts.v
theories/SpecLocal.v
theories/PropertiesRewrite.v
theories/QuietFacts.v
theories/SpecMigrate.v
theories/MigrateFacts.v
theories/MigrateFacts2.v
theories/SpecInside.v
theories/SpecWhole.v
theories/Shape30Facts.v
theories/Shape30Facts2.v
theories/Shape30Facts3.v
theories/Shape30Facts4.v
theories/TightFacts.v
theories/MigrateFacts3.v
theories/PropertiesMigrate.v
theories/RewriteFacts3.v
theories/LocalFacts.v
theories/LocalFacts2.v
theories/PropertiesLocal.v
theories/WholeFacts.v
theories/PropertiesWhole.v
theories/Follow.v
theories/SpecFollow.v
theories/FollowFacts.v
theories/FollowFacts2.v
theories/FollowFacts3.v
theories/SpecOpen12.v
theories/Up12Facts13.v
theories/Up12Facts14.v
theories/Up12Facts15.v
theories/Up12Facts16.v
theories/PropertiesFollow.v
theories/PartsFacts.v
theories/PropertiesParts.v
theories/SpecFields.v
theories/FieldsFacts.v
theories/PropertiesFields.v
theories/SpecClosed.v
theories/ClosedFacts.v
theories/PropertiesClosed.v
theories/SpecClosed30.v
theories/ClosedFacts30.v
theories/ClosedFacts30b.v
theories/PropertiesClosed30.v
theories/SpecClosed23.v
theories/ClosedFacts23.v
theories/PropertiesClosed23.v
theories/ItemFacts.v
theories/SpecLibrary.v
theories/LibraryFacts.v
theories/PropertiesLibrary.v
theories/FollowAll.v
theories/SpecFollowAll.v
theories/FollowAllFacts.v
theories/FollowAllFacts2.v
theories/WrittenFacts.v
theories/PropertiesFollowAll.v
theories/Declare.v
theories/Declarations.v
theories/SpecDeclare.v
theories/DeclareFacts.v
theories/PropertiesDeclare.v
theories/Attrs.v
theories/SpecAttrs.v
theories/AttrsFacts.v
theories/PropertiesAttrs.v
theories/Heap.v
theories/SpecHeap.v
theories/HeapFacts.v
theories/HeapFacts2.v
theories/HeapFacts3.v
theories/HeapFacts4.v
theories/PropertiesHeap.v
theories/Open12Facts.v
theories/Open12Facts2.v
theories/Check12.v
theories/PropertiesOpen12.v
theories/PropertiesFollowItems.v
