-Q theories Verif
theories/Base.v
theories/ClassOps.v
theories/SeqOps.v
theories/TierOps.v
theories/GridOps.v
theories/Demo.v
theories/Spec.v
theories/HeapProofs.v
theories/LinkProofs.v
theories/ListProofs.v
theories/ShiftProofs.v
theories/ListFinal.v
theories/Refute.v
theories/Properties_Lists.v
theories/Properties_Links.v
theories/History.v
theories/TreeProofs.v
theories/AdoptProofs.v
theories/AssignProofs.v
theories/TreeFinal.v
theories/DemoTree.v
theories/Properties_Tree.v
theories/ClassProofs.v
theories/ClassFinal.v
theories/DemoClass.v
theories/Properties_Classes.v
theories/QueryFinal.v
theories/DemoGrid.v
theories/Properties_Queries.v
theories/OutputFinal.v
theories/Properties_Output.v
theories/TierSpec.v
theories/TierFinal.v
theories/PointFinal.v
theories/Properties_Tiers.v
theories/GroupSpec.v
theories/PairFinal.v
theories/GroupFinal.v
theories/CalmProofs.v
theories/ArrangeFinal.v
theories/GapFinal.v
theories/DemoGroup.v
theories/DemoGap.v
theories/Properties_Groups.v
theories/Properties_Gaps.v
theories/FuseSpec.v
theories/FuseFinal.v
theories/DemoFuse.v
theories/Properties_Fuse.v
theories/OwnSpec.v
theories/OwnFinal.v
theories/DemoOwn.v
theories/Properties_Own.v
theories/LookupSpec.v
theories/LookupFinal.v
theories/Properties_Lookup.v
theories/PolarOps.v
theories/PolarSpec.v
theories/PolarFinal.v
theories/DemoPolar.v
theories/Properties_Polar.v
theories/EditSpec.v
theories/EditFinal.v
theories/DemoEdit.v
theories/Properties_Edit.v
theories/RelateSpec.v
theories/RelateFinal.v
theories/DemoRelate.v
theories/Properties_Relate.v
theories/GrowSpec.v
theories/GrowFinal.v
theories/DemoGrow.v
theories/Properties_Grow.v
theories/PopSpec.v
theories/PopFinal.v
theories/DemoPop.v
theories/Properties_Pop.v
theories/WeaveSpec.v
theories/WeaveFinal.v
theories/DemoWeave.v
theories/Properties_Weave.v
theories/ReadSpec.v
theories/ReadClasses.v
theories/ReadMade.v
theories/DemoRead.v
theories/Properties_Read.v
theories/TripSpec.v
theories/TripFinal.v
theories/Properties_Trip.v
theories/SpliceSpec.v
theories/SpliceFinal.v
theories/DemoSplice.v
theories/Properties_Splice.v
theories/AddSpec.v
theories/AddFinal.v
theories/DemoAdd.v
theories/Properties_Add.v
theories/AccessOps.v
theories/AccessSpec.v
theories/AccessFinal.v
theories/DemoAccess.v
theories/Properties_Access.v
theories/NameOps.v
theories/NameSpec.v
theories/NameFinal.v
theories/DemoName.v
theories/Properties_Name.v
theories/AppendSpec.v
theories/ExtendSpec.v
theories/ExtendFinal.v
theories/ExtendGridFinal.v
theories/DemoExtend.v
theories/Properties_Extend.v
theories/CleanSpec.v
theories/RefillFinal.v
theories/CleanDownFinal.v
theories/CleanFinal.v
theories/DemoClean.v
theories/Properties_Clean.v
theories/AppendTiers.v
theories/AppendFinal.v
theories/BuildFinal.v
theories/DemoAppend.v
theories/Properties_Append.v
theories/TidySpec.v
theories/TidyFinal.v
theories/DemoTidy.v
theories/Properties_Tidy.v
theories/ReadFinal.v
theories/DemoPlug.v
theories/Properties_Plug.v
theories/SnapSpec.v
theories/SnapFinal.v
theories/DemoSnap.v
theories/ChildSpec.v
theories/ChildFinal.v
theories/BroodFinal.v
theories/Properties_Snap.v
theories/DemoChild.v
theories/Properties_Child.v
theories/MendSpec.v
theories/MendFinal.v
theories/MendGroupFinal.v
theories/DemoMend.v
theories/Properties_Mend.v
theories/RaggedSpec.v
theories/RaggedProofs.v
theories/RaggedFinal.v
theories/DemoRagged.v
theories/Properties_Ragged.v
theories/PlusOps.v
theories/PlusSpec.v
theories/PlusFinal.v
theories/DemoPlus.v
theories/Properties_Plus.v
theories/PluckSpec.v
theories/PluckFinal.v
theories/DemoPluck.v
theories/Properties_Pluck.v
theories/ReviseSpec.v
theories/ReviseFinal.v
theories/RevReadFinal.v
theories/DemoRevise.v
theories/DemoRevRead.v
theories/Properties_Revise.v
theories/TagOps.v
theories/TagSpec.v
theories/TagFinal.v
theories/TagAllFinal.v
theories/DemoTag.v
theories/Properties_Tag.v
theories/MergeSpec.v
theories/MergeLeaf.v
theories/MergeFinal.v
theories/MergeGridFinal.v
theories/MergeReadFinal.v
theories/DemoMerge.v
theories/Properties_Merge.v
theories/LevelSpec.v
theories/LevelFinal.v
theories/DemoLevel.v
theories/Properties_Level.v
theories/UnevenSpec.v
theories/UnevenFinal.v
theories/DemoUneven.v
theories/Properties_Uneven.v
theories/WidenSpec.v
theories/WidenFinal.v
theories/DemoWiden.v
theories/Properties_Widen.v
theories/MixSpec.v
theories/MixFinal.v
theories/DemoMix.v
theories/Properties_Mix.v
theories/BesideSpec.v
theories/BesideFinal.v
theories/DemoBeside.v
theories/Properties_Beside.v
theories/ShowOps.v
theories/ShowSpec.v
theories/ShowFinal.v
theories/DemoShow.v
theories/Properties_Show.v
theories/SliceOps.v
theories/SliceSpec.v
theories/SliceFinal.v
theories/DemoSlice.v
theories/Properties_Slice.v
theories/LeftOps.v
theories/LeftSpec.v
theories/LeftFinal.v
theories/DemoLeft.v
theories/Properties_Left.v
theories/HomeSpec.v
theories/HomeFinal.v
theories/DemoHome.v
theories/Properties_Home.v
